(** C86: messages of any number of packets between two endpoints, from the handshake to the close. *)
From Verif Require Import UtilProofs SpecTransfer TransferProofs BulkProofs Samples.
Require Import Lia.
Local Open Scope Z_scope.

Notation server_number s0 := (w_rand (wd s0) (S (w_rtick (wd s0))) mod 65536).

(** From any two ends of a connection with nothing under way, a message of any length that leaves the sender at most 32768 numbers ahead of what was acknowledged:
    the sender, while answers come in, puts all of it on the wire, in packets the reader's reads return piece by piece; the flush succeeds; both are at ease again, no
    further ahead than before, and fit together in both directions if they did before.  Any clocks: the wait for room may end early (socket.rs:657) any number of times. *)
Theorem C86_delivery : forall ax ay d n x y, joined ax ay x y -> listens x y -> lead x + packets d <= 32769 -> (1380 <= n)%nat ->
  exists x' y', delivery ax ay d n x y x' y' /\ joined ax ay x' y' /\ listens x' y' /\ (listens y x -> listens y' x') /\ lead x' <= lead x /\ lead y' = lead y.
Proof. exact delivery_runs. Qed.
Print Assumptions C86_delivery.

(** Messages of any length at all: as long as no two successive readings of the sender's clock are 500 ms apart, no packet carries fewer than 13 bytes and the other end never
    offered more than 1 MiB, the window keeps the sender within reach of the acknowledgements (it starts at most 900 numbers ahead of them). *)
Theorem C86_any_length : forall ax ay d n x y, joined ax ay x y -> listens x y -> lead x <= 900 -> whole_packets d -> modest x -> (1380 <= n)%nat ->
  exists x' y', delivery ax ay d n x y x' y' /\ joined ax ay x' y' /\ listens x' y' /\ (listens y x -> listens y' x') /\ lead x' <= lead x /\ lead y' = lead y /\ modest x' /\ (modest y -> modest y').
Proof.
  intros ax ay d n x y H1 H2 H3 H4 H5 H6. destruct (delivery_gen true ax ay d n x y H1 H2 (conj H3 (conj H4 H5)) H6) as (x' & y' & G1 & G2 & G3 & G4 & G5 & G6 & G7 & G8). exists x', y'. auto 15.
Qed.
Print Assumptions C86_any_length.

(** Conversations of such messages, in one direction or both. *)
Theorem C86_conversation : forall ax ay ms x y, joined ax ay x y -> listens x y -> lead x <= 900 -> modest x -> (listens y x /\ lead y <= 900 /\ modest y \/ Forall (fun m => fst (fst m) = true) ms) ->
  Forall (fun m => (1380 <= snd m)%nat /\ whole_packets (snd (fst m))) ms ->
  exists x' y', chat ax ay ms x y x' y' /\ joined ax ay x' y' /\ listens x' y' /\ (listens y x -> listens y' x').
Proof. exact chat_long. Qed.
Print Assumptions C86_conversation.

(** The reader need not keep up: with all packets waiting, one read after the other returns the pieces. *)
Theorem C86_read_at_once : forall a n ps cs qs y y', read_each a n ps cs qs y y' ->
  run_ops (repeat (ORecvFrom n) (length cs)) (arrive a ps y) = (map (fun c => Ret (VData c a)) cs, y') /\ sent_to a qs y y'.
Proof. exact read_at_once. Qed.
Print Assumptions C86_read_at_once.

(** Handshake, any number of messages in any directions, close by the client.  The client's messages may take 32768 packets each (45 219 840 bytes); the server's as
    many fewer as its random first number says, because [last_acked] starts at 0. *)
Theorem C86_connection : forall ac al asv c0 s0 ms n, untouched c0 -> untouched s0 ->
  Forall (fun m : bool * list byte * nat => (1380 <= snd m)%nat /\ (if fst (fst m) then packets (snd (fst m)) <= 32768 else 0 < server_number s0 <= 32768 /\ server_number s0 + packets (snd (fst m)) <= 32769)) ms ->
  exists c1 s1 c2 s2 c3 s3, handshake ac al asv c0 s0 c1 s1 /\ chat ac asv ms c1 s1 c2 s2 /\ farewell ac asv n c2 s2 c3 s3.
Proof.
  intros ac al asv c0 s0 ms n HC HS HM. destruct (handshake_leads ac al asv c0 s0 HC HS) as (c & s & H1 & H2 & H3 & H4 & L1 & L2).
  destruct (chat_runs ac asv ms c s H2 H3) as (c' & s' & T & J & L & _).
  - rewrite <- L2 in HM. destruct (Z_le_dec 1 (lead s)) as [H|H]; [destruct (Z_le_dec (lead s) 32768) as [H'|H']; [left; apply H4; lia|]|];
      (right; eapply Forall_impl; [|exact HM]; intros [[[] d] k] (_ & Hm); cbn [fst snd] in *; [reflexivity|lia]).
  - eapply Forall_impl; [|exact HM]. intros [[b d] k] (Hk & Hm). split; [exact Hk|]. cbn [fst snd] in *. rewrite L1, L2. destruct b; lia.
  - destruct (farewell_runs ac asv n c' s' J (proj1 L)) as (c2 & s2 & F). exists c, s, c', s', c2, s2. auto.
Qed.
Print Assumptions C86_connection.

(** ** Examples *)
(** The answers of [y] are fed back to [x] [k] times, starting from none. *)
Definition carried (s s' : st) : list packet := map snd (skipn (length (w_sent (wd s))) (w_sent (wd s'))).
Fixpoint answers (k : nat) (ax ay : addr) (d : list byte) (n : nat) (x y : st) : list packet :=
  match k with
  | O => []
  | S k => let ps := carried x (snd (run_op (OSendTo d) (arrive ay (answers k ax ay d n x y) x))) in
      carried y (snd (run_ops (repeat (ORecvFrom n) (length ps)) (arrive ax ps y)))
  end.
Notation client_start := (mkSt blank (sample_world true 300 [])).
Notation server_start r := (mkSt blank (sample_world true r [])).
Definition meet (r : Z) : st * st :=
  let s := snd (accept (RxDgram (syn_of client_start) local) (Ok peer) (Ok tt) (server_start r)) in
  let c := snd (connect (Ok [V4 99]) (Ok tt) (arrive peer (carried (server_start r) s) client_start)) in (c, s).
(** Six packets.  Without answers the client waits for room after the second; with them everything arrives. *)
Example C86_example : let (c, s) := meet 500 in let d := repeat x41 (70 * 100) in
  let q1 := run_op (OSendTo d) c in
  let qs := answers 6 local peer d 2000 c s in
  let q2 := run_op (OSendTo d) (arrive peer qs c) in let ps := carried c (snd q2) in
  let r := run_ops (repeat (ORecvFrom 2000) 6) (arrive local ps s) in
  (fst q1, length (carried c (snd q1)), map get_type ps, carried s (snd r)) = (Fail Pend, 2%nat, repeat (Some PData) 6, qs) /\
  fst q2 = Ret (VLen 7000) /\ fst r = repeat (Ret (VData (repeat x41 1380) local)) 5 ++ [Ret (VData (repeat x41 100) local)] /\ fst (run_op OFlush (snd q2)) = Ret VUnit /\
  lead c = 1 /\ lead s = 500 /\ packets d = 6.
Proof. vm_compute. repeat split; reflexivity. Qed.
(** The two after the handshake meet the conditions for messages of any length; the clock of [sample_world] advances 1 ms at each reading. *)
Example C86_example_modest : let (c, s) := meet 500 in (lead c <=? 900) && (lead s <=? 900) && (s_remote_wnd_size (sk c) <=? 1048576) && (s_remote_wnd_size (sk s) <=? 1048576) = true /\
  map (fun i => ts_sub (micros_of_clock (w_clock (wd c) (S i))) (micros_of_clock (w_clock (wd c) i))) (seq 0 5) = repeat 1000 5.
Proof. vm_compute. split; reflexivity. Qed.
