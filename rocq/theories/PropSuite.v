(** C105, C106: the crate's own tests on the model. *)
From Verif Require Import SpecSuite SuiteProofs.
Local Open Scope Z_scope.

(** ** C105: the property that quickcheck samples holds of every byte string, and the tests without a random draw pass *)
Theorem C105_quicktest (x : list byte) : quicktest x = true.
Proof. exact (quicktest_true x). Qed.
Print Assumptions C105_quicktest.

Definition B : list Z -> list byte := map z2b.
Definition plain : list byte := B [0x21; 0x00; 0x41; 0xa8; 0x99; 0x2f; 0xd0; 0x2a; 0x9f; 0x4a; 0x26; 0x21; 0x00; 0x10; 0x00; 0x00; 0x3a; 0xf2; 0x6c; 0x79].
Definition extended : list byte :=
  B [0x21; 0x01; 0x41; 0xa7; 0; 0; 0; 0; 0; 0; 0; 0; 0; 0; 0x05; 0xdc; 0xab; 0x53; 0x3a; 0xf5; 0x00; 0x04; 0x00; 0x00; 0x00; 0x00].
Definition imaginary (a b c d e f g h : Z) : list byte :=
  B [0x21; 0x01; 0x41; 0xa7; 0; 0; 0; 0; 0; 0; 0; 0; 0; 0; 0x05; 0xdc; 0xab; 0x53; 0x3a; 0xf5; 0xff; 0x04; a; b; c; d; 0x00; 0x04; e; f; g; h].
Definition rejected (b : list byte) : bool := match packet_try_from b with Some (Err _) => true | _ => false end.

(** packet.rs:505-527 *)
Example suite_packet_decode :
  packet_try_from plain = Some (Ok plain) /\ get_version plain = 1 /\ get_extension_type plain = ENone /\ get_type plain = Some PState /\
  connection_id plain = 16808 /\ timestamp plain = 2570047530 /\ timestamp_difference plain = 2672436769 /\ wnd_size plain = 1048576 /\
  seq_nr plain = 15090 /\ ack_nr plain = 27769 /\ packet_len plain = 20 /\ payload plain = Some [].
Proof. vm_compute. tauto. Qed.
(** packet.rs:529-557 *)
Example suite_decode_packet_with_extension :
  packet_try_from extended = Some (Ok extended) /\ get_version extended = 1 /\ get_extension_type extended = ESack /\ get_type extended = Some PState /\
  connection_id extended = 16807 /\ timestamp extended = 0 /\ timestamp_difference extended = 0 /\ wnd_size extended = 1500 /\ seq_nr extended = 43859 /\
  ack_nr extended = 15093 /\ packet_len extended = 26 /\ payload extended = Some [] /\ extensions extended = Some [mkExt ESack (B [0; 0; 0; 0])].
Proof. vm_compute. tauto. Qed.
(** packet.rs:559-577, 733-746 *)
Example suite_rejected :
  rejected (B [0x21; 0x01; 0x41; 0xa8; 0x99; 0x2f; 0xd0; 0x2a; 0x9f; 0x4a; 0x26; 0x21; 0x00; 0x10; 0x00; 0x00; 0x3a; 0xf2; 0x6c; 0x79]) = true /\
  rejected (B [0x21; 0x01; 0x41; 0xa8; 0x99; 0x2f; 0xd0; 0x2a; 0x9f; 0x4a; 0x26; 0x21; 0x00; 0x10; 0x00; 0x00; 0x3a; 0xf2; 0x6c; 0x79; 0x00; 0x04; 0x00]) = true /\
  rejected (B [0; 1; 0; 0; 0; 0; 0; 0; 0; 0; 0; 0; 0; 0; 0; 0; 0; 0; 0; 0; 0]) = true /\ rejected [] = true.
Proof. vm_compute. tauto. Qed.
(** packet.rs:579-611, 768-812 *)
Example suite_unknown_extensions :
  let p := imaginary 0 0 0 0 0 0 0 0 in let q := imaginary 1 2 3 4 5 6 7 8 in
  packet_try_from p = Some (Ok p) /\ get_version p = 1 /\ get_extension_type p = ESack /\ get_type p = Some PState /\ connection_id p = 16807 /\ timestamp p = 0 /\
  timestamp_difference p = 0 /\ wnd_size p = 1500 /\ seq_nr p = 43859 /\ ack_nr p = 15093 /\ payload p = Some [] /\
  extensions p = Some [mkExt ESack (B [0; 0; 0; 0]); mkExt (EUnknown xff) (B [0; 0; 0; 0])] /\
  extensions plain = Some [] /\ extensions q = Some [mkExt ESack (B [1; 2; 3; 4]); mkExt (EUnknown xff) (B [5; 6; 7; 8])].
Proof. vm_compute. tauto. Qed.
(** packet.rs:613-657 *)
Example suite_setters :
  get_type (set_type PSyn packet_new) = Some PSyn /\ get_type (set_type PState (set_type PSyn packet_new)) = Some PState /\
  get_type (set_type PFin (set_type PState packet_new)) = Some PFin /\ get_type (set_type PReset (set_type PFin packet_new)) = Some PReset /\
  get_type (set_type PData (set_type PReset packet_new)) = Some PData /\
  (exists p q, set_sack (B [1; 2; 3; 4]) packet_new = Some p /\ extensions p = Some [mkExt ESack (B [1; 2; 3; 4])] /\ set_sack (B [5; 6; 7; 8; 9; 10; 11; 12]) p = Some q /\
     extensions q = Some [mkExt ESack (B [1; 2; 3; 4]); mkExt ESack (B [5; 6; 7; 8; 9; 10; 11; 12])]).
Proof. do 5 (split; [reflexivity|]). eexists _, _. vm_compute. tauto. Qed.
(** packet.rs:659-731 *)
Example suite_packet_encode :
  let hello := B [0x48; 0x65; 0x6c; 0x6c; 0x6f; 0x0a] in
  let buf := B [0x01; 0x00; 0x41; 0xa8; 0x00; 0xe9; 0x03; 0x89; 0x65; 0xbf; 0x5d; 0xba; 0x00; 0x10; 0x00; 0x00; 0x3a; 0xf2; 0x42; 0xc8] ++ hello in
  let fill p := set_wnd_size 1048576 (set_ack_nr 17096 (set_seq_nr 15090 (set_connection_id 16808 (set_timestamp_difference 1707040186 (set_timestamp 15270793 p))))) in
  fill (set_type PData (with_payload hello)) = buf /\ fill (with_payload hello) = buf /\ packet_len buf = 26 /\ payload buf = Some hello /\ get_version buf = 1 /\
  get_extension_type buf = ENone /\ get_type buf = Some PData /\ connection_id buf = 16808 /\ seq_nr buf = 15090 /\ ack_nr buf = 17096 /\ wnd_size buf = 1048576 /\
  timestamp buf = 15270793 /\ timestamp_difference buf = 1707040186 /\ packet_try_from buf = Some (Ok buf).
Proof. vm_compute. tauto. Qed.
(** bit_iterator.rs:51-59; util.rs:47-85 *)
Example suite_bits :
  bits_of (B [0xCA; 0xFE]) = Some (map (fun b => b =? 1) [0; 1; 0; 1; 0; 0; 1; 1; 0; 1; 1; 1; 1; 1; 1; 1]).
Proof. reflexivity. Qed.
Example suite_util :
  let third := f_div (f_of_Z 1) (f_of_Z 3) in
  ewma [] third = f_of_Z 0 /\ ewma [1] third = f_of_Z 1 /\ ewma [1; 2; 3; 4; 5; 6; 7; 8; 9; 10] third = f_div (f_of_Z 158488) (f_of_Z 19683) /\
  abs_diff 10 5 = 5 /\ abs_diff 5 10 = 5.
Proof. vm_compute. tauto. Qed.

(** socket.rs:1894-1931, 2299-2329, 2119-2125 *)
Definition alone {A} (chk : bool) (r : Z) (m : M A) : outcome A := fst (m (mkSt blank (sample_world chk r []))).
Example suite_alone :
  alone true 5 test_sorted_buffer_insertion = Ret tt /\ alone true 5 test_base_delay_calculation = Ret ([7; 9], 7) /\ alone true 5 test_drop_unused_socket = Ret tt.
Proof. vm_compute. tauto. Qed.
(** socket.rs:2128-2150, 2153-2178: the only answer to the SYN *)
Example suite_connect :
  fst (connect_to here (mkSt blank (sample_world true 300 [RxDgram [] here]))) = Fail (Throw KOther) /\
  fst (connect_to here (mkSt blank (sample_world true 300 [RxDgram (set_type PData packet_new) here]))) = Fail (Throw KConnectionRefused).
Proof. vm_compute. tauto. Qed.
(** socket.rs:2408-2423, given what the resolver says *)
Example suite_take_address :
  fst (take_address (Ok [V4 0]) (mkSt blank (sample_world true 0 []))) = Ret (V4 0) /\ fst (take_address (Ok [V6 0]) (mkSt blank (sample_world true 0 []))) = Ret (V6 0) /\
  fst (take_address (Err KInvalidInput) (mkSt blank (sample_world true 0 []))) = Fail (Throw KInvalidInput).
Proof. vm_compute. tauto. Qed.

(** Two endpoints *)
Definition as_is (l : list rx) : list rx := l.
Definition passes {A B} (c : addr -> M A) (s : addr -> M B) (fc fs : list rx -> list rx) (n : nat) : Prop :=
  both there here (c here) (s here) fc fs 300 500 n.
(** Timeouts after the given numbers of packets *)
Fixpoint waits_after (l : list nat) (evs : list rx) : list rx :=
  match l with [] => evs | k :: r => firstn k evs ++ timeout :: waits_after r (skipn k evs) end.
Ltac passed := unfold passes, both; cbv zeta; split; [|split; [|split]]; [eexists; vm_compute; reflexivity|eexists; vm_compute; reflexivity|vm_compute; reflexivity|vm_compute; reflexivity].

(** socket.rs:1342-1378 *)
Example suite_socket_ipv4 : passes socket_client socket_server as_is as_is 3. Proof. passed. Qed.
(** socket.rs:1380-1415 *)
Example suite_socket_ipv6 : both (V6 2) (V6 1) (socket_client (V6 1)) (socket_server (V6 1)) as_is as_is 300 500 3. Proof. passed. Qed.
Example suite_recvfrom_on_closed_socket : passes closer recvfrom_closed as_is as_is 3. Proof. passed. Qed.
Example suite_sendto_on_closed_socket : passes closer sendto_closed as_is as_is 3. Proof. passed. Qed.
(** socket.rs:1475-1509: the channel carries the same number to the other side *)
Example suite_acks_on_socket : passes acks_client acks_server as_is as_is 3 /\
  let r := settle there here (acks_client here) (acks_server here) as_is as_is 300 500 3 [] in fst (fst r) = fst (snd r).
Proof. split; [passed|vm_compute; reflexivity]. Qed.
Example suite_response_to_triple_ack : passes (sends (pattern 1024)) triple_server as_is as_is 5. Proof. passed. Qed.
(** socket.rs:1832-1892: the client's timer runs out once *)
Example suite_socket_timeout_request : passes request_client request_server (waits_after [1%nat]) as_is 5. Proof. passed. Qed.
Example suite_duplicate_packet_handling : passes duplicate_client duplicate_server as_is as_is 4. Proof. passed. Qed.
(** socket.rs:2000-2046: the client's timer runs out after the first five packets it gets, and after each of the next five *)
Example suite_correct_packet_loss : passes loss_client (gathers 1500 (pattern 10240)) (waits_after [5; 1; 1; 1; 1; 1]%nat) as_is 13. Proof. passed. Qed.
Example suite_tolerance_to_small_buffers : passes (sends (pattern 1024)) small_server as_is as_is 4. Proof. passed. Qed.
Example suite_sequence_number_rollover : passes rollover_client (gathers 1500 (pattern 6000)) as_is as_is 7. Proof. passed. Qed.
Example suite_receiving_syn_on_established_connection : passes syn_client drain_server as_is as_is 4. Proof. passed. Qed.
Example suite_receiving_reset_on_established_connection : passes reset_client reset_server as_is as_is 3. Proof. passed. Qed.
Example suite_premature_fin : passes (sends (pattern 6000)) (fun sa => premature_server sa (V4 9)) as_is as_is 7. Proof. passed. Qed.
Example suite_peer_addr : passes peer_client (fun sa => peer_server sa there) as_is as_is 4. Proof. passed. Qed.
(** socket.rs:2426-2548: the peer is dead, only timeouts come *)
Example suite_connection_loss_data : passes (lost_client PData) lost_data_server as_is (fun l => l ++ repeat timeout 6) 3. Proof. passed. Qed.
Example suite_connection_loss_fin : passes (lost_client PFin) lost_fin_server as_is (fun l => l ++ repeat timeout 6) 3. Proof. passed. Qed.
Example suite_connection_loss_waiting : passes lost_waiting_client lost_waiting_server as_is (fun l => l ++ repeat timeout 6) 3. Proof. passed. Qed.

(** tests/stream.rs.  [read_to_end] polls a read with a buffer of some size until one returns 0; the client's stream is
    written and closed.  The transfer of a megabyte (large_data) is C102's case. *)
Definition stream_client (polls : list action) (sa : addr) : M (list (poll sval)) := connect_to sa ;;; scripted polls.
Definition stream_server (polls : list action) (sa : addr) : M (list (poll sval)) := bind_to sa ;;; scripted polls.
Definition streams (c s : list action) (fc : list rx -> list rx) (n : nat) : list (poll sval) * list (poll sval) :=
  let r := settle there here (stream_client c here) (stream_server s here) fc as_is 300 500 n [] in
  (match fst (fst r) with Ret l => l | _ => [] end, match fst (snd r) with Ret l => l | _ => [] end).
Definition room (n : nat) : list byte := repeat x00 n.
Example suite_stream_open_and_close :
  streams [PollOwnClose true] [PollRead (room 32) true; PollOwnClose true] as_is 6 = ([Ready (Ok SvUnit)], [Ready (Ok (SvRead 0 (room 32))); Ready (Ok SvUnit)]).
Proof. vm_compute. reflexivity. Qed.
Example suite_stream_small_data :
  streams [PollWrite (pattern 1024) true; PollOwnClose true] [PollRead (room 1024) true; PollRead (room 32) true; PollRead (room 1024) true] as_is 6 =
  ([Ready (Ok (SvLen 1024)); Ready (Ok SvUnit)], [Ready (Ok (SvRead 1024 (pattern 1024))); Ready (Ok (SvRead 0 (room 32))); Ready (Ok (SvRead 0 (room 1024)))]).
Proof. vm_compute. reflexivity. Qed.
(** Clones share the socket: the polls of both are polls of the one stream. *)
Example suite_clone :
  streams [PollWrite (B [0; 1; 2]) true; PollWrite (B [3; 4; 5]) true] [PollRead (room 3) true; PollRead (room 3) true] as_is 6 =
  ([Ready (Ok (SvLen 3)); Ready (Ok (SvLen 3))], [Ready (Ok (SvRead 3 (B [0; 1; 2]))); Ready (Ok (SvRead 3 (B [3; 4; 5])))]).
Proof. vm_compute. reflexivity. Qed.

(** ** C106: the tests that draw a connection id at random *)

(** Whatever is drawn, they pass — but for 65535 in a build with overflow checks, which tests are, and for 0 and 1 in the
    test of foreign packets, where twice the id is one of the connection's own ids. *)
Theorem C106_handle_packet_partial (id : Z) (s : st) : 0 <= id < 65535 -> exists s', test_handle_packet id s = (Ret tt, s').
Proof. exact (handle_packet_test id s). Qed.
Print Assumptions C106_handle_packet_partial.
Theorem C106_keepalive_partial (id : Z) (s : st) : 0 <= id < 65536 -> (w_chk (wd s) = true -> id < 65535) -> exists s', test_response_to_keepalive_ack id s = (Ret tt, s').
Proof. exact (keepalive_test id s). Qed.
Print Assumptions C106_keepalive_partial.
Theorem C106_unordered_partial (id : Z) (s : st) : 0 <= id < 65536 -> (w_chk (wd s) = true -> id < 65535) -> exists s', test_unordered_packets id s = (Ret tt, s').
Proof. exact (unordered_test id s). Qed.
Print Assumptions C106_unordered_partial.
Theorem C106_wrong_id_partial (id : Z) (s : st) : 1 < id < 65536 -> (w_chk (wd s) = true -> id < 65535) -> exists s', test_response_to_wrong_connection_id id s = (Ret tt, s').
Proof. intros H C. exact (wrong_id_test id s (conj (Z.le_trans _ _ _ (Z.le_succ_diag_r 0) (Z.lt_le_incl _ _ (proj1 H))) (proj2 H)) C (proj1 H)). Qed.
Print Assumptions C106_wrong_id_partial.
(** The failing draws, whatever else happens. *)
Theorem C106_refuted :
  (forall id s, 0 <= id <= 1 -> exists s', test_response_to_wrong_connection_id id s = (Fail (Panic 1694), s')) /\
  (forall s, w_chk (wd s) = true ->
     (exists s', test_handle_packet 65535 s = (Fail (Panic 1514), s')) /\ (exists s', test_response_to_keepalive_ack 65535 s = (Fail (Panic 888), s')) /\
     (exists s', test_response_to_wrong_connection_id 65535 s = (Fail (Panic 888), s')) /\ (exists s', test_unordered_packets 65535 s = (Fail (Panic 888), s'))).
Proof. exact draws_refuted. Qed.
Print Assumptions C106_refuted.
Example C106_draws : forall id, In id [0; 1; 2; 300; 32768; 65534; 65535] ->
  let ok {A} (o : outcome A) := match o with Ret _ => true | _ => false end in
  ok (alone true 7 (test_handle_packet id)) = (id <? 65535) /\ ok (alone true 7 (test_response_to_keepalive_ack id)) = (id <? 65535) /\
  ok (alone true 7 (test_unordered_packets id)) = (id <? 65535) /\ ok (alone true 7 (test_response_to_wrong_connection_id id)) = ((1 <? id) && (id <? 65535)).
Proof. intros id H. cbn [In] in H. repeat destruct H as [<-|H]; try contradiction; vm_compute; tauto. Qed.
