(** The crate's own unit tests (the [#[test]] functions of src/*.rs and tests/stream.rs), transcribed as programs over the
    model.  An [assert!] is a panic at its line, [iotry!] is the monad's bind.  What the tests take from outside
    (random draws, clock, which packets arrive and when) is a parameter. *)
From Verif Require Export Samples Stream.
Local Open Scope Z_scope.

Definition assert (line : Z) (b : bool) : M unit := if b then ret tt else fail (Panic line).
(** [assert!(r.is_ok()); assert!(r.unwrap().is_some())] *)
Definition some_reply (line : Z) (m : M (option packet)) : M packet :=
  r <- m ;; match r with Some p => ret p | None => fail (Panic line) end.
(** [match call { Err(e) if e.kind() == k => (), _ => panic!() }] *)
Definition fails_with (line : Z) (kd : kind) (m : M (list byte * addr)) : M unit := fun s =>
  match m s with
  | (Fail (Throw k), s') => (assert line match k, kd with
                                         | KTimedOut, KTimedOut | KConnectionReset, KConnectionReset | KNotConnected, KNotConnected
                                         | KConnectionRefused, KConnectionRefused | KOther, KOther => true | _, _ => false end) s'
  | (Ret _, s') => (Fail (Panic line), s')
  | (Fail f, s') => (Fail f, s')
  end.
Definition as_pair {A} (m : M A) : M (list byte * addr) := m ;;; ret ([], V4 0).
Definition is_error (line : Z) {A} (m : M A) : M unit := fun s =>
  match m s with
  | (Fail (Throw k), s') => (Ret tt, s')
  | (Ret _, s') => (Fail (Panic line), s')
  | (Fail f, s') => (Fail f, s')
  end.
Definition in_state (x : sstate) (s : socket) : bool := sstate_eqb (s_state s) x.
Definition typed (t : ptype) (p : packet) : bool := match get_type p with Some t' => ptype_eqb t' t | None => false end.
Definition no_payload (p : packet) : bool := match payload p with Some [] => true | _ => false end.
Definition same_addr (a b : addr) : bool := match a, b with V4 x, V4 y | V6 x, V6 y => x =? y | _, _ => false end.
(** The UDP socket of a [UtpSocket], used directly. *)
Definition raw_send (dst : addr) (p : packet) : M unit := r <- udp_send dst p ;; try_ r.
Definition raw_recv : M packet :=
  r <- udp_recv 1500 ;; x <- try_ r ;; q <- unwrap 0 (packet_try_from (fst x)) ;; match q with Ok p => ret p | Err _ => fail (Panic 0) end.
Definition bind_to (a : addr) : M unit := bind_socket (Ok [a]) (Ok tt).
Definition connect_to (a : addr) : M unit := connect (Ok [a]) (Ok tt).
(** [(0..n).map(|idx| idx as u8)] *)
Fixpoint count_up (n : nat) (i : Z) : list byte := match n with O => [] | S k => z2b i :: count_up k (i + 1) end.
Definition pattern (n : Z) : list byte := count_up (Z.to_nat n) 0.
Definition bytes_eqb (a b : list byte) : bool := if list_eq_dec Byte.byte_eq_dec a b then true else false.
(** [loop { match recv_from { Ok((0, _)) => break, Ok((len, _)) => received.extend(..) } }] *)
Definition receive_all (n : nat) : M (list byte) :=
  fuel <- event_fuel ;;
  loop (fuel + 2000) (fun acc : list byte =>
    x <- recv_from n ;;
    if is_nil (fst x) then ret (inr acc) else ret (inl (acc ++ fst x))) [].

(** ** Tests of [handle_packet] on one socket; [id] is what [rand::random()] gave *)

Definition bare (t : ptype) (wnd id sq ak : Z) : packet :=
  set_ack_nr ak (set_seq_nr sq (set_connection_id id (set_type t (set_wnd_size wnd packet_new)))).
Definition here : addr := V4 1.
Definition there : addr := V4 2.

(** socket.rs:1511-1610 *)
Definition test_handle_packet (id : Z) : M unit :=
  sender <- ck_u16 1514 (id + 1) ;;
  bind_to here ;;;
  let syn := bare PSyn 1500 id 0 0 in
  r1 <- some_reply 1530 (handle_packet recv syn there) ;;
  assert 1534 (typed PState r1) ;;;
  assert 1537 (connection_id r1 =? connection_id syn) ;;;
  assert 1540 (ack_nr r1 =? seq_nr syn) ;;;
  assert 1543 (no_payload r1) ;;;
  n2 <- ck_u16 1555 (seq_nr syn + 1) ;;
  let data := bare PData 0 sender n2 (seq_nr r1) in
  r2 <- some_reply 1561 (handle_packet recv data there) ;;
  assert 1564 (typed PState r2) ;;;
  assert 1569 (connection_id r2 =? id) ;;;
  back <- ck_u16 1570 (connection_id data - 1) ;;
  assert 1570 (connection_id r2 =? back) ;;;
  assert 1573 (ack_nr r2 =? seq_nr data) ;;;
  assert 1576 (no_payload r2) ;;;
  assert 1577 (seq_nr r2 =? seq_nr r1) ;;;
  n3 <- ck_u16 1587 (seq_nr data + 1) ;;
  let fin := bare PFin 0 sender n3 (seq_nr r2) in
  r3 <- some_reply 1593 (handle_packet recv fin there) ;;
  assert 1597 (typed PState r3) ;;;
  assert 1600 (seq_nr fin =? seq_nr data + 1) ;;;
  assert 1603 (seq_nr r3 =? seq_nr r2) ;;;
  assert 1606 (ack_nr r3 =? seq_nr fin).

(** The common start of the next three tests. *)
Definition establish (id : Z) : M packet :=
  bind_to here ;;;
  r <- some_reply 1631 (handle_packet recv (bare PSyn 1500 id 0 0) there) ;;
  assert 1633 (typed PState r) ;;; ret r.

(** socket.rs:1612-1658 *)
Definition expect_none (line : Z) (m : M (option packet)) : M unit :=
  r <- m ;; match r with None => ret tt | Some _ => fail (Panic line) end.
Definition test_response_to_keepalive_ack (id : Z) : M unit :=
  r <- establish id ;;
  let keep := bare PState 1500 id 1 (seq_nr r) in
  expect_none 1650 (handle_packet recv keep there) ;;;
  expect_none 1656 (handle_packet recv keep there) ;;;
  upd_sk (ss_state Closed).

(** socket.rs:1661-1702 *)
Definition test_response_to_wrong_connection_id (id : Z) : M unit :=
  establish id ;;;
  let bad := bare PState 1500 (u16 (id * 2)) 0 0 in
  r <- some_reply 1694 (handle_packet recv bad there) ;;
  assert 1697 (typed PReset r) ;;;
  assert 1698 (ack_nr r =? seq_nr bad) ;;;
  upd_sk (ss_state Closed).

(** socket.rs:1704-1761 *)
Definition loaded (pl : list byte) (id sq ak : Z) : packet :=
  set_ack_nr ak (set_seq_nr sq (set_connection_id id (set_wnd_size 1500 (with_payload pl)))).
Definition test_unordered_packets (id : Z) : M unit :=
  r <- establish id ;;
  let p0 := loaded [x01; x02; x03] id 1 (seq_nr r) in
  let p1 := loaded [x04; x05; x06] id 2 (seq_nr r) in
  a <- some_reply 1750 (handle_packet recv p1 there) ;;
  assert 1752 (negb (ack_nr a =? seq_nr p1)) ;;;
  some_reply 1757 (handle_packet recv p0 there) ;;;
  upd_sk (ss_state Closed).

(** socket.rs:1894-1931 *)
Definition buffered (line : Z) (n : nat) (i : nat) (sq ts : Z) : M unit :=
  s <- get_sk ;;
  assert line (Nat.eqb (length (s_incoming_buffer s)) n && (seq_nr (nth i (s_incoming_buffer s) []) =? sq) && (timestamp (nth i (s_incoming_buffer s) []) =? ts)).
Definition test_sorted_buffer_insertion : M unit :=
  bind_to here ;;;
  let p sq ts := set_timestamp ts (set_seq_nr sq packet_new) in
  s <- get_sk ;;
  assert 1902 (is_nil (s_incoming_buffer s)) ;;;
  insert_into_buffer (p 1 0) ;;; buffered 1905 1 0 1 0 ;;;
  insert_into_buffer (p 2 128) ;;; buffered 1911 2 1 2 128 ;;;
  insert_into_buffer (p 3 256) ;;; buffered 1919 3 2 3 256 ;;;
  insert_into_buffer (p 2 456) ;;; buffered 1928 3 1 2 128.

(** socket.rs:2299-2329 *)
Definition test_base_delay_calculation : M (list Z * Z) :=
  bind_to here ;;;
  let feed t d := update_base_delay d (u32 (t + d)) in
  feed 0 10 ;;; feed 1 8 ;;; feed 2 12 ;;; feed 3 7 ;;; feed 60000001 11 ;;; feed 60000002 19 ;;; feed 60000003 9 ;;;
  s <- get_sk ;; ret (s_base_delays s, min_base_delay s).

(** socket.rs:2119-2125 *)
Definition test_drop_unused_socket : M unit := bind_to here ;;; drop_socket.

(** ** Tests with two endpoints *)

(** The child task is the client.  [settle] runs both programs again and again, each time with what the other one
    sent the time before, until nothing changes; [fc] and [fs] put timeouts between the packets. *)
Section Settle.
  Context {A B : Type} (ca sa : addr) (client : M A) (server : M B) (fc fs : list rx -> list rx) (rc rs : Z).
  Definition play {X} (m : M X) (r : Z) (evs : list rx) : outcome X * st := m (mkSt blank (sample_world true r evs)).
  Definition sent_to (a : addr) (s : st) : list packet :=
    map snd (filter (fun x => same_addr (fst x) a) (w_sent (wd s))).
  Definition from (a : addr) (l : list packet) : list rx := map (fun p => RxDgram p a) l.
  Fixpoint settle (n : nat) (cin : list rx) : (outcome A * st) * (outcome B * st) :=
    let c := play client rc (fc cin) in
    let s := play server rs (fs (from ca (sent_to sa (snd c)))) in
    match n with O => (c, s) | S k => settle k (from sa (sent_to ca (snd s))) end.
  (** Both end with [Ok], and one more round changes nothing. *)
  Definition both (n : nat) : Prop :=
    let r := settle n [] in let r' := settle (S n) [] in
    (exists a, fst (fst r) = Ret a) /\ (exists b, fst (snd r) = Ret b) /\
    w_sent (wd (snd (fst r))) = w_sent (wd (snd (fst r'))) /\ w_sent (wd (snd (snd r))) = w_sent (wd (snd (snd r'))).
End Settle.

(** socket.rs:1342-1415 (IPv4 and IPv6) *)
Definition ids_client (line : Z) : M unit :=
  s <- get_sk ;; assert line (s_sender_connection_id s =? s_receiver_connection_id s + 1).
Definition ids_server (line : Z) : M unit :=
  s <- get_sk ;; assert line (s_receiver_connection_id s =? s_sender_connection_id s + 1).
Definition expect_state (line : Z) (x : sstate) : M unit := s <- get_sk ;; assert line (in_state x s).
Definition socket_client (sa : addr) : M unit :=
  connect_to sa ;;; expect_state 1350 Connected ;;; ids_client 1352 ;;;
  (s <- get_sk ;; assert 1356 (same_addr (s_connected_to s) sa)) ;;;
  close ;;; drop_socket.
Definition socket_server (sa : addr) : M unit :=
  bind_to sa ;;; expect_state 1346 New ;;;
  ignore_result (recv_from 1500) ;;; ids_server 1369 ;;; expect_state 1374 Closed ;;; drop_socket.

(** socket.rs:1417-1445 *)
Definition closer (sa : addr) : M unit := connect_to sa ;;; expect_state 1426 Connected ;;; close ;;; drop_socket.
Definition recvfrom_closed (sa : addr) : M unit :=
  bind_to sa ;;; expect_state 1422 New ;;; ignore_result (recv_from 1500) ;;; expect_state 1433 Closed ;;;
  x <- recv_from 1500 ;; assert 1437 (is_nil (fst x)) ;;; expect_state 1440 Closed ;;; drop_socket.
(** socket.rs:1447-1473 *)
Definition sendto_closed (sa : addr) : M unit :=
  bind_to sa ;;; expect_state 1452 New ;;; recv_from 1500 ;;; expect_state 1463 Closed ;;;
  fails_with 1467 KNotConnected (as_pair (send_to (repeat x00 1500))) ;;; drop_socket.
(** socket.rs:1475-1509; the channel is the server's result *)
Definition acks_server (sa : addr) : M Z :=
  bind_to sa ;;; recv 1500 ;;; s <- get_sk ;; recv_from 1500 ;;; drop_socket ;;; ret (s_seq_nr s).
Definition acks_client (sa : addr) : M Z :=
  connect_to sa ;;; expect_state 1493 Connected ;;; s <- get_sk ;; close ;;;
  s' <- get_sk ;; assert 1504 (s_ack_nr s' =? s_ack_nr s) ;;; drop_socket ;;; ret (s_ack_nr s).

(** socket.rs:1764-1829 *)
Definition sends (data : list byte) (sa : addr) : M unit := connect_to sa ;;; send_to data ;;; close ;;; drop_socket.
Definition triple_server (sa : addr) : M unit :=
  bind_to sa ;;; recv 1500 ;;;
  d <- raw_recv ;;
  assert 1789 (typed PData d) ;;;
  assert 1790 (match payload d with Some pl => bytes_eqb pl (pattern 1024) | None => false end) ;;;
  s <- get_sk ;;
  prev <- ck_u16 1798 (seq_nr d - 1) ;;
  let p := bare PState 1500 (s_sender_connection_id s) (s_seq_nr s) prev in
  raw_send (s_connected_to s) p ;;; raw_send (s_connected_to s) p ;;; raw_send (s_connected_to s) p ;;;
  q <- raw_recv ;;
  assert 1812 (typed PData q) ;;; assert 1813 (seq_nr q =? seq_nr d) ;;;
  assert 1814 (match payload q, payload d with Some a, Some b => bytes_eqb a b | _, _ => false end) ;;;
  a <- some_reply 1817 (handle_packet recv q (s_connected_to s)) ;;
  raw_send (s_connected_to s) a ;;;
  recv_from 1500 ;;; drop_socket.

(** socket.rs:1832-1892 *)
Definition request_client (sa : addr) : M unit :=
  connect_to sa ;;; expect_state 1857 Connected ;;; send_to (pattern 512) ;;; drop_socket.
Definition request_server (sa : addr) : M unit :=
  bind_to sa ;;; expect_state 1845 New ;;; recv 1500 ;;; ids_server 1866 ;;; expect_state 1871 Connected ;;;
  raw_recv ;;; upd_sk (ss_congestion_timeout 50) ;;;
  fuel <- event_fuel ;;
  loop fuel (fun _ : unit => x <- recv_from 1500 ;; ret (if is_nil (fst x) then inl tt else inr tt)) tt ;;;
  drop_socket.

(** socket.rs:1933-1997 *)
Definition duplicate_client (sa : addr) : M unit :=
  connect_to sa ;;; expect_state 1951 Connected ;;;
  s <- get_sk ;;
  let p := loaded [x01; x02; x03] (s_sender_connection_id s) (s_seq_nr s) (s_ack_nr s) in
  t1 <- now_microseconds ;; raw_send sa (set_timestamp t1 p) ;;;
  t2 <- now_microseconds ;; raw_send sa (set_timestamp t2 p) ;;;
  n <- ck_u16 1964 (s_seq_nr s + 1) ;; upd_sk (ss_seq_nr n) ;;;
  raw_recv ;;; close ;;; drop_socket.
Definition duplicate_server (sa : addr) : M unit :=
  bind_to sa ;;; expect_state 1939 New ;;; recv 1500 ;;; ids_server 1978 ;;; expect_state 1982 Connected ;;;
  d <- receive_all 1500 ;; assert 1994 (bytes_eqb d [x01; x02; x03]) ;;; drop_socket.

(** socket.rs:2000-2046: chunks of 1500 bytes, only every other one sent *)
Fixpoint lossy_sends (n : nat) (i : nat) (data : list byte) (dst : addr) : M unit :=
  match n with
  | O => ret tt
  | S k =>
    if is_nil data then ret tt
    else
      s <- get_sk ;;
      t <- now_microseconds ;;
      let p := set_timestamp t (set_connection_id (s_sender_connection_id s) (set_ack_nr (s_ack_nr s) (set_seq_nr (s_seq_nr s) (with_payload (firstn 1500 data))))) in
      (if Nat.even i then raw_send dst p else ret tt) ;;;
      c <- ck_u32 2024 (s_curr_window s + packet_len p) ;;
      n <- ck_u16 2026 (s_seq_nr s + 1) ;;
      upd_sk (fun s => ss_seq_nr n (ss_send_window (s_send_window s ++ [p]) (ss_curr_window c s))) ;;;
      lossy_sends k (S i) (skipn 1500 data) dst
  end.
Definition loss_client (sa : addr) : M unit := connect_to sa ;;; lossy_sends 20 0 (pattern 10240) sa ;;; close ;;; drop_socket.
Definition gathers (n : nat) (data : list byte) (sa : addr) : M unit :=
  bind_to sa ;;; d <- receive_all n ;; assert 2042 (bytes_eqb d data) ;;; drop_socket.

(** socket.rs:2049-2076: a buffer of 512 bytes, and the loop ends when the socket is closed *)
Definition small_server (sa : addr) : M unit :=
  bind_to sa ;;;
  d <- loop 2000 (fun acc : list byte =>
         s <- get_sk ;;
         if in_state Closed s then ret (inr acc)
         else x <- recv_from 512 ;; if is_nil (fst x) then ret (inr acc) else ret (inl (acc ++ fst x))) [] ;;
  assert 2072 (bytes_eqb d (pattern 1024)) ;;; drop_socket.

(** socket.rs:2079-2116 *)
Definition rollover_client (sa : addr) : M unit :=
  connect_to sa ;;; send_to (pattern 6000) ;;; s <- get_sk ;; assert 2098 (s_seq_nr s <? 50) ;;; close ;;; drop_socket.

(** socket.rs:2181-2217 *)
Definition syn_client (sa : addr) : M unit :=
  connect_to sa ;;; s <- get_sk ;;
  raw_send sa (bare PSyn 1500 (s_sender_connection_id s) (s_seq_nr s) (s_ack_nr s)) ;;;
  r <- raw_recv ;; assert 2208 (typed PReset r) ;;; close ;;; drop_socket.
Definition drain_server (sa : addr) : M unit := bind_to sa ;;; receive_all 1500 ;;; drop_socket.
(** socket.rs:2219-2253; the child is not waited for *)
Definition reset_client (sa : addr) : M unit :=
  connect_to sa ;;; s <- get_sk ;;
  raw_send sa (bare PReset 1500 (s_sender_connection_id s) (s_seq_nr s) (s_ack_nr s)).
Definition reset_server (sa : addr) : M unit :=
  bind_to sa ;;; fails_with 2250 KConnectionReset (as_pair (receive_all 1500)).

(** socket.rs:2255-2296: the FIN goes to an address at which nobody listens *)
Definition premature_server (sa elsewhere : addr) : M unit :=
  bind_to sa ;;; recv 1500 ;;; s <- get_sk ;;
  t <- now_microseconds ;;
  raw_send elsewhere (set_type PFin (set_timestamp t (set_ack_nr (s_ack_nr s) (set_seq_nr (s_seq_nr s) (set_connection_id (s_sender_connection_id s) packet_new))))) ;;;
  d <- receive_all 1500 ;; assert 2292 (bytes_eqb d (pattern 6000)) ;;; drop_socket.

(** socket.rs:2370-2405 *)
Definition peer_client (sa : addr) : M unit := connect_to sa ;;; recv_from 1024 ;;; drop_socket.
Definition peer_server (sa ca : addr) : M unit :=
  bind_to sa ;;; is_error 2379 peer_addr ;;; recv 1024 ;;;
  a <- peer_addr ;; assert 2398 (same_addr a ca) ;;; close ;;; is_error 2404 peer_addr ;;; drop_socket.

(** socket.rs:2426-2462, 2464-2500, 2502-2548 *)
Fixpoint expect_raw (n : nat) (ok : packet -> bool) : M unit :=
  match n with O => ret tt | S k => p <- raw_recv ;; assert 2445 (ok p) ;;; expect_raw k ok end.
Definition lost_client (t : ptype) (sa : addr) : M unit :=
  connect_to sa ;;; send_to [x00] ;;; upd_sk (ss_state Closed) ;;; raw_recv ;;; expect_raw 5 (typed t).
Definition lost_waiting_client (sa : addr) : M unit :=
  connect_to sa ;;; send_to [x00] ;;; upd_sk (ss_state Closed) ;;; s <- get_sk ;;
  expect_raw 15 (fun p => typed PState p && (ack_nr p =? s_seq_nr s - 1)).
Definition lost_data_server (sa : addr) : M unit :=
  bind_to sa ;;; upd_sk (ss_congestion_timeout 1) ;;; recv_from 1500 ;;; send_to [x00] ;;; fails_with 2458 KTimedOut (recv 1500).
Definition lost_fin_server (sa : addr) : M unit :=
  bind_to sa ;;; upd_sk (ss_congestion_timeout 1) ;;; recv_from 1500 ;;; fails_with 2496 KTimedOut (as_pair close).
Definition lost_waiting_server (sa : addr) : M unit :=
  bind_to sa ;;; upd_sk (ss_congestion_timeout 1) ;;; recv_from 1500 ;;; fails_with 2543 KTimedOut (recv_from 1500).

(** packet.rs:744-766: what quickcheck tries on 10000 random inputs; a panic ([None]) fails the test *)
Definition failed {A E} (r : result A E) : bool := match r with Ok _ => false | Err _ => true end.
Definition quicktest (x : list byte) : bool :=
  match packet_try_from x, check_extensions x with
  | Some packet, Some c =>
    if failed (header_try_from x) || failed c then failed packet
    else match packet with Ok p => bytes_eqb p x | Err _ => false end
  | _, _ => false
  end.

(** tests/stream.rs: a script of polls of a stream around a socket.  The model of the stream keeps a suspended operation
    by its start (see [advance]); what it has sent so far is what its run so far has sent. *)
Definition scripted (l : list action) : M (list (poll sval)) := fun s =>
  let (r, t) := acts l (stream_new s) in
  match t_lock t with
  | None => (Ret r, t_st t)
  | Some sl => match t_slot t sl with Some (Running o _ _) => (Fail Pend, snd (run_op o (t_st t))) | _ => (Fail Pend, t_st t) end
  end.
