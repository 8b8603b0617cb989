(** Socket record, world, and the monad in which src/socket.rs is modelled.
    The record and its field updates are spelled out mechanically, one update function per field. *)
From Verif Require Export Util Float.
Local Open Scope Z_scope.

(** A socket address; the code only looks at the family (socket.rs:252-255, 1243-1246). *)
Inductive addr := V4 (n : Z) | V6 (n : Z).

(** socket.rs:46-54 [SocketState] *)
Inductive sstate := New | Connected | SynSent | FinSent | ResetReceived | Closed.
Definition sstate_eqb (a b : sstate) : bool :=
  match a, b with
  | New, New | Connected, Connected | SynSent, SynSent | FinSent, FinSent
  | ResetReceived, ResetReceived | Closed, Closed => true
  | _, _ => false
  end.

(** One result of awaiting [UdpSocket::recv_from]: a datagram with its source; an I/O error (including a
    timeout of [io::timeout]); or the future being dropped by its owner while it waits. *)
Inductive rx := RxDgram (data : list byte) (src : addr) | RxErr (k : kind) | RxCancel.

(** One result of awaiting [UdpSocket::send_to]: sent; an I/O error, nothing sent; or the future being
    dropped while it waits, nothing sent. *)
Inductive sendres := SendOk | SendErr (k : kind) | SendDrop.

(** socket.rs:100-179 [UtpSocket]; the wrapped UDP socket (103) is the world below.
    Integer fields hold the value of the fixed-width integer. *)
Record socket := mkSocket {
  s_connected_to : addr (* socket.rs:106 *);
  s_sender_connection_id : Z (* 109 *);
  s_receiver_connection_id : Z (* 112 *);
  s_seq_nr : Z (* 115 *);
  s_ack_nr : Z (* 118 *);
  s_state : sstate (* 121 *);
  s_incoming_buffer : list packet (* 124 *);
  s_send_window : list packet (* 127 *);
  s_unsent_queue : list packet (* 130 *);
  s_duplicate_ack_count : Z (* 133 *);
  s_last_acked : Z (* 136 *);
  s_last_acked_timestamp : Z (* 139 *);
  s_last_dropped : Z (* 142 *);
  s_rtt : Z (* 145 *);
  s_rtt_variance : Z (* 148 *);
  s_pending_data : list byte (* 151 *);
  s_curr_window : Z (* 154 *);
  s_remote_wnd_size : Z (* 157 *);
  s_base_delays : list Z (* 160 *);
  s_current_delays : list (Z * Z) (* 163, 57-60: pairs (received_at, difference) *);
  s_their_delay : Z (* 166 *);
  s_last_rollover : Z (* 169 *);
  s_congestion_timeout : Z (* 172 *);
  s_cwnd : Z (* 175 *);
  s_max_retries : Z (* 178 max_retransmission_retries *)
}.
Definition ss_connected_to (v : addr) (s : socket) : socket :=
  mkSocket v (s_sender_connection_id s) (s_receiver_connection_id s) (s_seq_nr s) (s_ack_nr s) (s_state s) (s_incoming_buffer s) (s_send_window s) (s_unsent_queue s) (s_duplicate_ack_count s) (s_last_acked s) (s_last_acked_timestamp s) (s_last_dropped s) (s_rtt s) (s_rtt_variance s) (s_pending_data s) (s_curr_window s) (s_remote_wnd_size s) (s_base_delays s) (s_current_delays s) (s_their_delay s) (s_last_rollover s) (s_congestion_timeout s) (s_cwnd s) (s_max_retries s).
Definition ss_sender_connection_id (v : Z) (s : socket) : socket :=
  mkSocket (s_connected_to s) v (s_receiver_connection_id s) (s_seq_nr s) (s_ack_nr s) (s_state s) (s_incoming_buffer s) (s_send_window s) (s_unsent_queue s) (s_duplicate_ack_count s) (s_last_acked s) (s_last_acked_timestamp s) (s_last_dropped s) (s_rtt s) (s_rtt_variance s) (s_pending_data s) (s_curr_window s) (s_remote_wnd_size s) (s_base_delays s) (s_current_delays s) (s_their_delay s) (s_last_rollover s) (s_congestion_timeout s) (s_cwnd s) (s_max_retries s).
Definition ss_receiver_connection_id (v : Z) (s : socket) : socket :=
  mkSocket (s_connected_to s) (s_sender_connection_id s) v (s_seq_nr s) (s_ack_nr s) (s_state s) (s_incoming_buffer s) (s_send_window s) (s_unsent_queue s) (s_duplicate_ack_count s) (s_last_acked s) (s_last_acked_timestamp s) (s_last_dropped s) (s_rtt s) (s_rtt_variance s) (s_pending_data s) (s_curr_window s) (s_remote_wnd_size s) (s_base_delays s) (s_current_delays s) (s_their_delay s) (s_last_rollover s) (s_congestion_timeout s) (s_cwnd s) (s_max_retries s).
Definition ss_seq_nr (v : Z) (s : socket) : socket :=
  mkSocket (s_connected_to s) (s_sender_connection_id s) (s_receiver_connection_id s) v (s_ack_nr s) (s_state s) (s_incoming_buffer s) (s_send_window s) (s_unsent_queue s) (s_duplicate_ack_count s) (s_last_acked s) (s_last_acked_timestamp s) (s_last_dropped s) (s_rtt s) (s_rtt_variance s) (s_pending_data s) (s_curr_window s) (s_remote_wnd_size s) (s_base_delays s) (s_current_delays s) (s_their_delay s) (s_last_rollover s) (s_congestion_timeout s) (s_cwnd s) (s_max_retries s).
Definition ss_ack_nr (v : Z) (s : socket) : socket :=
  mkSocket (s_connected_to s) (s_sender_connection_id s) (s_receiver_connection_id s) (s_seq_nr s) v (s_state s) (s_incoming_buffer s) (s_send_window s) (s_unsent_queue s) (s_duplicate_ack_count s) (s_last_acked s) (s_last_acked_timestamp s) (s_last_dropped s) (s_rtt s) (s_rtt_variance s) (s_pending_data s) (s_curr_window s) (s_remote_wnd_size s) (s_base_delays s) (s_current_delays s) (s_their_delay s) (s_last_rollover s) (s_congestion_timeout s) (s_cwnd s) (s_max_retries s).
Definition ss_state (v : sstate) (s : socket) : socket :=
  mkSocket (s_connected_to s) (s_sender_connection_id s) (s_receiver_connection_id s) (s_seq_nr s) (s_ack_nr s) v (s_incoming_buffer s) (s_send_window s) (s_unsent_queue s) (s_duplicate_ack_count s) (s_last_acked s) (s_last_acked_timestamp s) (s_last_dropped s) (s_rtt s) (s_rtt_variance s) (s_pending_data s) (s_curr_window s) (s_remote_wnd_size s) (s_base_delays s) (s_current_delays s) (s_their_delay s) (s_last_rollover s) (s_congestion_timeout s) (s_cwnd s) (s_max_retries s).
Definition ss_incoming_buffer (v : list packet) (s : socket) : socket :=
  mkSocket (s_connected_to s) (s_sender_connection_id s) (s_receiver_connection_id s) (s_seq_nr s) (s_ack_nr s) (s_state s) v (s_send_window s) (s_unsent_queue s) (s_duplicate_ack_count s) (s_last_acked s) (s_last_acked_timestamp s) (s_last_dropped s) (s_rtt s) (s_rtt_variance s) (s_pending_data s) (s_curr_window s) (s_remote_wnd_size s) (s_base_delays s) (s_current_delays s) (s_their_delay s) (s_last_rollover s) (s_congestion_timeout s) (s_cwnd s) (s_max_retries s).
Definition ss_send_window (v : list packet) (s : socket) : socket :=
  mkSocket (s_connected_to s) (s_sender_connection_id s) (s_receiver_connection_id s) (s_seq_nr s) (s_ack_nr s) (s_state s) (s_incoming_buffer s) v (s_unsent_queue s) (s_duplicate_ack_count s) (s_last_acked s) (s_last_acked_timestamp s) (s_last_dropped s) (s_rtt s) (s_rtt_variance s) (s_pending_data s) (s_curr_window s) (s_remote_wnd_size s) (s_base_delays s) (s_current_delays s) (s_their_delay s) (s_last_rollover s) (s_congestion_timeout s) (s_cwnd s) (s_max_retries s).
Definition ss_unsent_queue (v : list packet) (s : socket) : socket :=
  mkSocket (s_connected_to s) (s_sender_connection_id s) (s_receiver_connection_id s) (s_seq_nr s) (s_ack_nr s) (s_state s) (s_incoming_buffer s) (s_send_window s) v (s_duplicate_ack_count s) (s_last_acked s) (s_last_acked_timestamp s) (s_last_dropped s) (s_rtt s) (s_rtt_variance s) (s_pending_data s) (s_curr_window s) (s_remote_wnd_size s) (s_base_delays s) (s_current_delays s) (s_their_delay s) (s_last_rollover s) (s_congestion_timeout s) (s_cwnd s) (s_max_retries s).
Definition ss_duplicate_ack_count (v : Z) (s : socket) : socket :=
  mkSocket (s_connected_to s) (s_sender_connection_id s) (s_receiver_connection_id s) (s_seq_nr s) (s_ack_nr s) (s_state s) (s_incoming_buffer s) (s_send_window s) (s_unsent_queue s) v (s_last_acked s) (s_last_acked_timestamp s) (s_last_dropped s) (s_rtt s) (s_rtt_variance s) (s_pending_data s) (s_curr_window s) (s_remote_wnd_size s) (s_base_delays s) (s_current_delays s) (s_their_delay s) (s_last_rollover s) (s_congestion_timeout s) (s_cwnd s) (s_max_retries s).
Definition ss_last_acked (v : Z) (s : socket) : socket :=
  mkSocket (s_connected_to s) (s_sender_connection_id s) (s_receiver_connection_id s) (s_seq_nr s) (s_ack_nr s) (s_state s) (s_incoming_buffer s) (s_send_window s) (s_unsent_queue s) (s_duplicate_ack_count s) v (s_last_acked_timestamp s) (s_last_dropped s) (s_rtt s) (s_rtt_variance s) (s_pending_data s) (s_curr_window s) (s_remote_wnd_size s) (s_base_delays s) (s_current_delays s) (s_their_delay s) (s_last_rollover s) (s_congestion_timeout s) (s_cwnd s) (s_max_retries s).
Definition ss_last_acked_timestamp (v : Z) (s : socket) : socket :=
  mkSocket (s_connected_to s) (s_sender_connection_id s) (s_receiver_connection_id s) (s_seq_nr s) (s_ack_nr s) (s_state s) (s_incoming_buffer s) (s_send_window s) (s_unsent_queue s) (s_duplicate_ack_count s) (s_last_acked s) v (s_last_dropped s) (s_rtt s) (s_rtt_variance s) (s_pending_data s) (s_curr_window s) (s_remote_wnd_size s) (s_base_delays s) (s_current_delays s) (s_their_delay s) (s_last_rollover s) (s_congestion_timeout s) (s_cwnd s) (s_max_retries s).
Definition ss_last_dropped (v : Z) (s : socket) : socket :=
  mkSocket (s_connected_to s) (s_sender_connection_id s) (s_receiver_connection_id s) (s_seq_nr s) (s_ack_nr s) (s_state s) (s_incoming_buffer s) (s_send_window s) (s_unsent_queue s) (s_duplicate_ack_count s) (s_last_acked s) (s_last_acked_timestamp s) v (s_rtt s) (s_rtt_variance s) (s_pending_data s) (s_curr_window s) (s_remote_wnd_size s) (s_base_delays s) (s_current_delays s) (s_their_delay s) (s_last_rollover s) (s_congestion_timeout s) (s_cwnd s) (s_max_retries s).
Definition ss_rtt (v : Z) (s : socket) : socket :=
  mkSocket (s_connected_to s) (s_sender_connection_id s) (s_receiver_connection_id s) (s_seq_nr s) (s_ack_nr s) (s_state s) (s_incoming_buffer s) (s_send_window s) (s_unsent_queue s) (s_duplicate_ack_count s) (s_last_acked s) (s_last_acked_timestamp s) (s_last_dropped s) v (s_rtt_variance s) (s_pending_data s) (s_curr_window s) (s_remote_wnd_size s) (s_base_delays s) (s_current_delays s) (s_their_delay s) (s_last_rollover s) (s_congestion_timeout s) (s_cwnd s) (s_max_retries s).
Definition ss_rtt_variance (v : Z) (s : socket) : socket :=
  mkSocket (s_connected_to s) (s_sender_connection_id s) (s_receiver_connection_id s) (s_seq_nr s) (s_ack_nr s) (s_state s) (s_incoming_buffer s) (s_send_window s) (s_unsent_queue s) (s_duplicate_ack_count s) (s_last_acked s) (s_last_acked_timestamp s) (s_last_dropped s) (s_rtt s) v (s_pending_data s) (s_curr_window s) (s_remote_wnd_size s) (s_base_delays s) (s_current_delays s) (s_their_delay s) (s_last_rollover s) (s_congestion_timeout s) (s_cwnd s) (s_max_retries s).
Definition ss_pending_data (v : list byte) (s : socket) : socket :=
  mkSocket (s_connected_to s) (s_sender_connection_id s) (s_receiver_connection_id s) (s_seq_nr s) (s_ack_nr s) (s_state s) (s_incoming_buffer s) (s_send_window s) (s_unsent_queue s) (s_duplicate_ack_count s) (s_last_acked s) (s_last_acked_timestamp s) (s_last_dropped s) (s_rtt s) (s_rtt_variance s) v (s_curr_window s) (s_remote_wnd_size s) (s_base_delays s) (s_current_delays s) (s_their_delay s) (s_last_rollover s) (s_congestion_timeout s) (s_cwnd s) (s_max_retries s).
Definition ss_curr_window (v : Z) (s : socket) : socket :=
  mkSocket (s_connected_to s) (s_sender_connection_id s) (s_receiver_connection_id s) (s_seq_nr s) (s_ack_nr s) (s_state s) (s_incoming_buffer s) (s_send_window s) (s_unsent_queue s) (s_duplicate_ack_count s) (s_last_acked s) (s_last_acked_timestamp s) (s_last_dropped s) (s_rtt s) (s_rtt_variance s) (s_pending_data s) v (s_remote_wnd_size s) (s_base_delays s) (s_current_delays s) (s_their_delay s) (s_last_rollover s) (s_congestion_timeout s) (s_cwnd s) (s_max_retries s).
Definition ss_remote_wnd_size (v : Z) (s : socket) : socket :=
  mkSocket (s_connected_to s) (s_sender_connection_id s) (s_receiver_connection_id s) (s_seq_nr s) (s_ack_nr s) (s_state s) (s_incoming_buffer s) (s_send_window s) (s_unsent_queue s) (s_duplicate_ack_count s) (s_last_acked s) (s_last_acked_timestamp s) (s_last_dropped s) (s_rtt s) (s_rtt_variance s) (s_pending_data s) (s_curr_window s) v (s_base_delays s) (s_current_delays s) (s_their_delay s) (s_last_rollover s) (s_congestion_timeout s) (s_cwnd s) (s_max_retries s).
Definition ss_base_delays (v : list Z) (s : socket) : socket :=
  mkSocket (s_connected_to s) (s_sender_connection_id s) (s_receiver_connection_id s) (s_seq_nr s) (s_ack_nr s) (s_state s) (s_incoming_buffer s) (s_send_window s) (s_unsent_queue s) (s_duplicate_ack_count s) (s_last_acked s) (s_last_acked_timestamp s) (s_last_dropped s) (s_rtt s) (s_rtt_variance s) (s_pending_data s) (s_curr_window s) (s_remote_wnd_size s) v (s_current_delays s) (s_their_delay s) (s_last_rollover s) (s_congestion_timeout s) (s_cwnd s) (s_max_retries s).
Definition ss_current_delays (v : list (Z * Z)) (s : socket) : socket :=
  mkSocket (s_connected_to s) (s_sender_connection_id s) (s_receiver_connection_id s) (s_seq_nr s) (s_ack_nr s) (s_state s) (s_incoming_buffer s) (s_send_window s) (s_unsent_queue s) (s_duplicate_ack_count s) (s_last_acked s) (s_last_acked_timestamp s) (s_last_dropped s) (s_rtt s) (s_rtt_variance s) (s_pending_data s) (s_curr_window s) (s_remote_wnd_size s) (s_base_delays s) v (s_their_delay s) (s_last_rollover s) (s_congestion_timeout s) (s_cwnd s) (s_max_retries s).
Definition ss_their_delay (v : Z) (s : socket) : socket :=
  mkSocket (s_connected_to s) (s_sender_connection_id s) (s_receiver_connection_id s) (s_seq_nr s) (s_ack_nr s) (s_state s) (s_incoming_buffer s) (s_send_window s) (s_unsent_queue s) (s_duplicate_ack_count s) (s_last_acked s) (s_last_acked_timestamp s) (s_last_dropped s) (s_rtt s) (s_rtt_variance s) (s_pending_data s) (s_curr_window s) (s_remote_wnd_size s) (s_base_delays s) (s_current_delays s) v (s_last_rollover s) (s_congestion_timeout s) (s_cwnd s) (s_max_retries s).
Definition ss_last_rollover (v : Z) (s : socket) : socket :=
  mkSocket (s_connected_to s) (s_sender_connection_id s) (s_receiver_connection_id s) (s_seq_nr s) (s_ack_nr s) (s_state s) (s_incoming_buffer s) (s_send_window s) (s_unsent_queue s) (s_duplicate_ack_count s) (s_last_acked s) (s_last_acked_timestamp s) (s_last_dropped s) (s_rtt s) (s_rtt_variance s) (s_pending_data s) (s_curr_window s) (s_remote_wnd_size s) (s_base_delays s) (s_current_delays s) (s_their_delay s) v (s_congestion_timeout s) (s_cwnd s) (s_max_retries s).
Definition ss_congestion_timeout (v : Z) (s : socket) : socket :=
  mkSocket (s_connected_to s) (s_sender_connection_id s) (s_receiver_connection_id s) (s_seq_nr s) (s_ack_nr s) (s_state s) (s_incoming_buffer s) (s_send_window s) (s_unsent_queue s) (s_duplicate_ack_count s) (s_last_acked s) (s_last_acked_timestamp s) (s_last_dropped s) (s_rtt s) (s_rtt_variance s) (s_pending_data s) (s_curr_window s) (s_remote_wnd_size s) (s_base_delays s) (s_current_delays s) (s_their_delay s) (s_last_rollover s) v (s_cwnd s) (s_max_retries s).
Definition ss_cwnd (v : Z) (s : socket) : socket :=
  mkSocket (s_connected_to s) (s_sender_connection_id s) (s_receiver_connection_id s) (s_seq_nr s) (s_ack_nr s) (s_state s) (s_incoming_buffer s) (s_send_window s) (s_unsent_queue s) (s_duplicate_ack_count s) (s_last_acked s) (s_last_acked_timestamp s) (s_last_dropped s) (s_rtt s) (s_rtt_variance s) (s_pending_data s) (s_curr_window s) (s_remote_wnd_size s) (s_base_delays s) (s_current_delays s) (s_their_delay s) (s_last_rollover s) (s_congestion_timeout s) v (s_max_retries s).
Definition ss_max_retries (v : Z) (s : socket) : socket :=
  mkSocket (s_connected_to s) (s_sender_connection_id s) (s_receiver_connection_id s) (s_seq_nr s) (s_ack_nr s) (s_state s) (s_incoming_buffer s) (s_send_window s) (s_unsent_queue s) (s_duplicate_ack_count s) (s_last_acked s) (s_last_acked_timestamp s) (s_last_dropped s) (s_rtt s) (s_rtt_variance s) (s_pending_data s) (s_curr_window s) (s_remote_wnd_size s) (s_base_delays s) (s_current_delays s) (s_their_delay s) (s_last_rollover s) (s_congestion_timeout s) (s_cwnd s) v.

(** The environment of a socket. *)
Record world := mkWorld {
  w_in : list rx (* results still to come from [UdpSocket::recv_from] *);
  w_tick : nat (* clock readings so far *);
  w_clock : nat -> Z (* the n-th clock reading, microseconds since the epoch *);
  w_rtick : nat (* random draws so far *);
  w_rand : nat -> Z (* the n-th random draw *);
  w_stick : nat (* UDP sends so far *);
  w_send : nat -> sendres (* the result of the n-th UDP send *);
  w_sent : list (addr * packet) (* datagrams put on the wire, oldest first *);
  w_chk : bool (* build with overflow checks *)
}.
Definition sw_in (v : list rx) (w : world) : world :=
  mkWorld v (w_tick w) (w_clock w) (w_rtick w) (w_rand w) (w_stick w) (w_send w) (w_sent w) (w_chk w).
Definition sw_tick (v : nat) (w : world) : world :=
  mkWorld (w_in w) v (w_clock w) (w_rtick w) (w_rand w) (w_stick w) (w_send w) (w_sent w) (w_chk w).
Definition sw_rtick (v : nat) (w : world) : world :=
  mkWorld (w_in w) (w_tick w) (w_clock w) v (w_rand w) (w_stick w) (w_send w) (w_sent w) (w_chk w).
Definition sw_stick (v : nat) (w : world) : world :=
  mkWorld (w_in w) (w_tick w) (w_clock w) (w_rtick w) (w_rand w) v (w_send w) (w_sent w) (w_chk w).
Definition sw_sent (v : list (addr * packet)) (w : world) : world :=
  mkWorld (w_in w) (w_tick w) (w_clock w) (w_rtick w) (w_rand w) (w_stick w) (w_send w) v (w_chk w).

Record st := mkSt { sk : socket; wd : world }.

(** ** Monad *)

(** Ways in which a call does not return Ok: an [Err] (its kind), a panic (source line), suspension at an
    await point, or exhausted recursion fuel (shown impossible in TermProofs). *)
Inductive failure := Throw (k : kind) | Panic (line : Z) | Pend | NoFuel.
Inductive outcome (A : Type) := Ret (a : A) | Fail (f : failure).
Arguments Ret {A} a. Arguments Fail {A} f.

Definition M (A : Type) : Type := st -> outcome A * st.
Definition ret {A} (a : A) : M A := fun s => (Ret a, s).
Definition fail {A} (f : failure) : M A := fun s => (Fail f, s).
Definition bind {A B} (m : M A) (f : A -> M B) : M B := fun s =>
  match m s with (Ret a, s') => f a s' | (Fail e, s') => (Fail e, s') end.
Declare Scope m_scope.
Delimit Scope m_scope with m.
Notation "x <- m ;; k" := (bind m (fun x => k)) (at level 61, m at next level, right associativity) : m_scope.
Notation "m ;;; k" := (bind m (fun _ => k)) (at level 61, right associativity) : m_scope.
Open Scope m_scope.

(** Reading and updating the state *)
Definition get_sk : M socket := fun s => (Ret (sk s), s).
Definition get_wd : M world := fun s => (Ret (wd s), s).
Definition upd_sk (f : socket -> socket) : M unit := fun s => (Ret tt, mkSt (f (sk s)) (wd s)).
Definition upd_wd (f : world -> world) : M unit := fun s => (Ret tt, mkSt (sk s) (f (wd s))).

(** Errors: [return Err(..)], [?] on a UDP result, and [unwrap]/indexing that may panic *)
Definition throw {A} (k : kind) : M A := fail (Throw k).
Definition throw_se {A} (e : socket_error) : M A := throw (kind_of_socket_error e).
Definition try_ {A} (r : result A kind) : M A := match r with Ok a => ret a | Err k => throw k end.
Definition unwrap {A} (line : Z) (o : option A) : M A :=
  match o with Some a => ret a | None => fail (Panic line) end.

(** Arithmetic operators: in a build with overflow checks an out-of-range result panics, otherwise it
    wraps.  [lo], [hi] bound the type, [wr] is its wrap. *)
Definition arith (line lo hi : Z) (wr : Z -> Z) (v : Z) : M Z := fun s =>
  if w_chk (wd s) && negb ((lo <=? v) && (v <=? hi)) then (Fail (Panic line), s) else (Ret (wr v), s).
Definition ck_u16 (line v : Z) : M Z := arith line 0 (2 ^ 16 - 1) u16 v.
Definition ck_u32 (line v : Z) : M Z := arith line 0 (2 ^ 32 - 1) u32 v.
Definition ck_u64 (line v : Z) : M Z := arith line 0 (2 ^ 64 - 1) u64 v.
Definition ck_i32 (line v : Z) : M Z := arith line (- 2 ^ 31) (2 ^ 31 - 1) i32 v.
Definition ck_i64 (line v : Z) : M Z := arith line (- 2 ^ 63) (2 ^ 63 - 1) i64 v.

(** Loops: [body] returns [inl] to continue with a new loop variable and [inr] to leave the loop. *)
Fixpoint loop {S A} (fuel : nat) (body : S -> M (S + A)) (x : S) : M A :=
  match fuel with
  | O => fail NoFuel
  | Datatypes.S f => r <- body x ;; match r with inl x' => loop f body x' | inr a => ret a end
  end.

(** Fuel for loops that consume a network event in every iteration. *)
Definition event_fuel : M nat := fun s => (Ret (S (length (w_in (wd s)))), s).

(** ** Environment primitives *)

(** time.rs:7-14 [now_microseconds] *)
Definition now_microseconds : M Z := fun s =>
  let w := wd s in
  (Ret (micros_of_clock (w_clock w (w_tick w))), mkSt (sk s) (sw_tick (S (w_tick w)) w)).

(** [rand::random::<u16>()] *)
Definition random_u16 : M Z := fun s =>
  let w := wd s in
  (Ret (u16 (w_rand w (w_rtick w))), mkSt (sk s) (sw_rtick (S (w_rtick w)) w)).

(** Awaiting [UdpSocket::recv_from(&mut b)] with [b.len() = size], possibly under [io::timeout]: longer
    datagrams are truncated.  With no event left the call stays suspended. *)
Definition udp_recv (size : nat) : M (result (list byte * addr) kind) := fun s =>
  match w_in (wd s) with
  | [] => (Fail Pend, s)
  | ev :: rest =>
    let s' := mkSt (sk s) (sw_in rest (wd s)) in
    match ev with
    | RxDgram data src => (Ret (Ok (firstn size data, src)), s')
    | RxErr k => (Ret (Err k), s')
    | RxCancel => (Fail Pend, s')
    end
  end.

(** Awaiting [UdpSocket::send_to(p, dest)] *)
Definition udp_send (dest : addr) (p : packet) : M (result unit kind) := fun s =>
  let w := wd s in
  let w' := sw_stick (S (w_stick w)) w in
  match w_send w (w_stick w) with
  | SendOk => (Ret (Ok tt), mkSt (sk s) (sw_sent (w_sent w ++ [(dest, p)]) w'))
  | SendErr k => (Ret (Err k), mkSt (sk s) w')
  | SendDrop => (Fail Pend, mkSt (sk s) w')
  end.
