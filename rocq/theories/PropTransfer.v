(** C83: a handshake followed by a conversation in which the two sides take turns. *)
From Verif Require Import UtilProofs SpecTransfer TransferProofs Samples.
Require Import Lia.
Local Open Scope Z_scope.

(** The number the new connection of a listener draws for its packets. *)
Notation server_number s0 := (w_rand (wd s0) (S (w_rtick (wd s0))) mod 65536).

(** Whatever the clocks and the random numbers: the handshake succeeds on both sides and leaves two ends that fit together. *)
Theorem C83_handshake : forall ac al asv c0 s0, untouched c0 -> untouched s0 ->
  exists c s, handshake ac al asv c0 s0 c s /\ joined ac asv c s /\ listens c s /\ s_seq_nr (sk s) = server_number s0 /\ (0 < server_number s0 <= 32768 -> listens s c).
Proof.
  intros ac al asv c0 s0 HC HS. destruct (handshake_runs ac al asv c0 s0 HC HS) as (c & s & H1 & H2 & H3 & _ & H4 & H5 & _). rewrite H4 in H5. eauto 10.
Qed.
Print Assumptions C83_handshake.

(** Any number of messages, each in one packet, alternating as it pleases: each arrives with the next read, unchanged and with the sender's address, and the
    sender's flush succeeds.  Sequence numbers may wrap around any number of times.  The server speaks only if its first number is in the lower half. *)
Theorem C83_conversation_partial : forall ac al asv c0 s0 ms, untouched c0 -> untouched s0 -> Forall one_packet ms ->
  (0 < server_number s0 <= 32768 \/ Forall (fun m => fst (fst m) = true) ms) ->
  exists c s c' s', handshake ac al asv c0 s0 c s /\ talk ac asv ms c s c' s'.
Proof.
  intros ac al asv c0 s0 ms HC HS HM HB. destruct (handshake_runs ac al asv c0 s0 HC HS) as (c & s & H1 & H2 & H3 & _ & H4 & H5 & _).
  destruct (talk_runs ac asv ms c s HM H2 H3) as (c' & s' & T & _); [destruct HB as [HB|HB]; [left; apply H5; rewrite H4; exact HB|right; exact HB]|].
  exists c, s, c', s'. auto.
Qed.
Print Assumptions C83_conversation_partial.

(** The same from any two ends that fit together, not only new ones. *)
Theorem C83_continues : forall ax ay x y ms, joined ax ay x y -> listens x y -> Forall one_packet ms -> (listens y x \/ Forall (fun m => fst (fst m) = true) ms) ->
  exists x' y', talk ax ay ms x y x' y' /\ joined ax ay x' y' /\ listens x' y'.
Proof. intros ax ay x y ms H1 H2 H3 H4. exact (talk_runs ax ay ms x y H3 H1 H2 H4). Qed.
Print Assumptions C83_continues.

(** With a first number in the upper half, the server cannot speak: socket.rs:674-679 takes its first packet for one acknowledged long ago, because
    [last_acked] still is 0.  [send_to] reports success, and nothing was sent. *)
Theorem C83_server_mute_refuted : forall ac al asv c0 s0 d, untouched c0 -> untouched s0 -> 32768 < server_number s0 -> (0 < length d <= 1380)%nat ->
  exists c s s', handshake ac al asv c0 s0 c s /\ joined ac asv c s /\
    run_op (OSendTo d) s = (Ret (VLen (Z.of_nat (length d))), s') /\ w_sent (wd s') = w_sent (wd s).
Proof. exact handshake_mute. Qed.
Print Assumptions C83_server_mute_refuted.

(** ** Examples *)
Notation client_start := (mkSt blank (sample_world true 300 [])).
Notation server_start r := (mkSt blank (sample_world true r [])).
Example C83_start_example : untouched client_start /\ untouched (server_start 500) /\ server_number (server_start 500) = 500 /\ untouched (server_start 40000) /\ 32768 < server_number (server_start 40000).
Proof. repeat split; vm_compute; reflexivity. Qed.

(** The whole of it, computed: [step] lets one side send, the other read, the first flush. *)
Definition carried (s s' : st) : list packet := map snd (skipn (length (w_sent (wd s))) (w_sent (wd s'))).
Definition step (ax ay : addr) (d : list byte) (n : nat) (x y : st) : list (outcome value) * (st * st) :=
  let (o1, x1) := run_op (OSendTo d) x in
  let (o2, y1) := run_op (ORecvFrom n) (arrive ax (carried x x1) y) in
  let (o3, x2) := run_op OFlush (arrive ay (carried y y1) x1) in ([o1; o2; o3], (x2, y1)).
Definition meet (r : Z) : st * st :=
  let syn := syn_of client_start in
  let s := snd (accept (RxDgram syn local) (Ok peer) (Ok tt) (server_start r)) in
  let c := snd (connect (Ok [V4 99]) (Ok tt) (arrive peer (carried (server_start r) s) client_start)) in (c, s).
Example C83_conversation_example :
  let (c, s) := meet 500 in
  let (o1, cs1) := step local peer [x41; x42] 10 c s in
  let (o2, sc2) := step peer local [x43] 1 (snd cs1) (fst cs1) in
  let (o3, cs3) := step local peer [x44; x45; x46] 3 (snd sc2) (fst sc2) in
  (o1, o2, o3, s_send_window (sk (fst cs3))) =
    ([Ret (VLen 2); Ret (VData [x41; x42] local); Ret VUnit], [Ret (VLen 1); Ret (VData [x43] peer); Ret VUnit], [Ret (VLen 3); Ret (VData [x44; x45; x46] local); Ret VUnit], []).
Proof. vm_compute. reflexivity. Qed.
Example C83_server_mute_example :
  let (c, s) := meet 40000 in
  let (o1, sc) := step peer local [x41] 9 s (mkSt (sk c) (sw_in [timeout] (wd c))) in
  (hd (Ret VUnit) o1, carried s (fst sc)) = (Ret (VLen 1), []).
Proof. vm_compute. reflexivity. Qed.

(** ** C66, the SYNs in full *)
(** One SYN per attempt: version 1, no extension or payload, the id the socket receives under, number 1, nothing acknowledged, no window, and as timestamp the
    clock at that attempt, in microseconds modulo 2^32. *)
Theorem C66_syns : forall a l ks d src p rest s0, w_in (wd s0) = map RxErr ks ++ RxDgram d src :: rest ->
  Forall (fun k => is_timeout k = true) ks -> (length ks < 5)%nat -> (forall i, w_send (wd s0) i = SendOk) ->
  packet_try_from (firstn 1500 d) = Some (Ok p) -> get_type p = Some PState ->
  w_sent (wd (snd (connect (Ok (a :: l)) (Ok tt) s0))) = w_sent (wd s0) ++
    map (fun i => (a, wire (mkHdr PSyn (Z.min (w_rand (wd s0) (w_rtick (wd s0)) mod 65536) 65534) (Z.abs (w_clock (wd s0) (w_tick (wd s0) + i)%nat) mod 2 ^ 32) 0 0 1 0) [] [])) (seq 0 (S (length ks))).
Proof.
  intros a l ks d src p rest s0 H1 H2 H3 H4 H5 H6. destruct (connect_stamps a l ks d src p rest s0 H1 H2 H3 H4 H5 H6) as (s' & E & _ & _ & L & _). rewrite E. cbn [snd]. rewrite L. f_equal.
  apply map_ext. intros i. unfold syn_at, next_random. now rewrite micros_spec.
Qed.
Print Assumptions C66_syns.
Example C66_syns_example :
  map (fun x => timestamp (snd x)) (w_sent (wd (snd (connect (Ok [peer]) (Ok tt) (mkSt blank (sample_world true 300 [timeout; timeout; rx_pkt (dgram PState 300 9 1 [])])))))) =
    [1600000000000000 mod 4294967296; 1600000000001000 mod 4294967296; 1600000000002000 mod 4294967296].
Proof. vm_compute. reflexivity. Qed.
