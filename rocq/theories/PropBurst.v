(** C88: bursts over a network that loses packets and answers. *)
From Verif Require Import UtilProofs SpecBurst TransferProofs BulkProofs BurstProofs Samples.
Require Import Lia.
Local Open Scope Z_scope.

(** REFUTED in general: the loss of one packet of a burst can end the use of the connection.  Of three messages the first packet is lost; all three are read in the end and the flush
    succeeds, but the reader is left with an old packet at the head of its buffer.  The next message reaches it without loss, is acknowledged, ends the sender's flush, and is not read. *)
Definition carried (s s' : st) : list packet := map snd (skipn (length (w_sent (wd s))) (w_sent (wd s'))).
(** The state a call leaves. *)
Definition after {O} (r : O * st) : {s | s = snd r} := exist _ (snd r) eq_refl.
Lemma after_eq {O} (r : O * st) o (v : {s | s = snd r}) : fst r = o -> r = (o, proj1_sig v).
Proof. destruct v as [s ->]. destruct r. cbn. congruence. Qed.
Definition listener : addr := V4 99.
Notation client_start := (mkSt blank (sample_world true 300 [])).
Notation server_start := (mkSt blank (sample_world true 500 [])).
Definition hs_s_by := after (accept (RxDgram (syn_of client_start) local) (Ok peer) (Ok tt) server_start). Notation hs_s := (proj1_sig hs_s_by).
Definition hs_r : packet := nth 0 (carried server_start hs_s) [].
Definition hs_w_by := after (connect (Ok [listener]) (Ok tt) (script [] client_start)). Notation hs_w := (proj1_sig hs_w_by).
Definition hs_c_by := after (connect (Ok [listener]) (Ok tt) (script [RxDgram hs_r peer] client_start)). Notation hs_c := (proj1_sig hs_c_by).
Definition fl_x1_by := after (run_ops [OSendTo [x41]; OSendTo [x42]; OSendTo [x43]] hs_c). Notation fl_x1 := (proj1_sig fl_x1_by).
Definition fl_p1 : packet := nth 0 (carried hs_c fl_x1) [].
Definition fl_p2 : packet := nth 1 (carried hs_c fl_x1) [].
Definition fl_p3 : packet := nth 2 (carried hs_c fl_x1) [].
Definition fl_y1_by := after (run_op (ORecvFrom 1500) (arrive local [fl_p2; fl_p3] hs_s)). Notation fl_y1 := (proj1_sig fl_y1_by).
Definition fl_q2 : packet := nth 0 (carried hs_s fl_y1) [].
Definition fl_q3 : packet := nth 1 (carried hs_s fl_y1) [].
Definition fl_x2_by := after (run_op OFlush (script (datagrams peer [fl_q2; fl_q3] ++ [RxErr KTimedOut]) fl_x1)). Notation fl_x2 := (proj1_sig fl_x2_by).
Definition fl_p : packet := nth 0 (carried fl_x1 fl_x2) [].
Definition fl_y2_by := after (run_ops [ORecvFrom 1500; ORecvFrom 1500; ORecvFrom 1500] (arrive local [fl_p] fl_y1)). Notation fl_y2 := (proj1_sig fl_y2_by).
Definition fl_q4 : packet := nth 0 (carried fl_y1 fl_y2) [].
Definition fl_x3_by := after (run_op OFlush (script (datagrams peer [fl_q2; fl_q3] ++ [RxErr KTimedOut; RxDgram fl_q4 peer; RxErr KTimedOut]) fl_x1)). Notation fl_x3 := (proj1_sig fl_x3_by).
Definition fl_p' : packet := nth 1 (carried fl_x1 fl_x3) [].
Definition fl_y'_by := after (run_op (ORecvFrom 1500) (arrive local [fl_p'] fl_y2)). Notation fl_y' := (proj1_sig fl_y'_by).
Definition fl_q5 : packet := nth 0 (carried fl_y2 fl_y') [].
Definition fl_x'_by := after (run_op OFlush (script (datagrams peer [fl_q2; fl_q3] ++ [RxErr KTimedOut; RxDgram fl_q4 peer; RxErr KTimedOut; RxDgram fl_q5 peer]) fl_x1)). Notation fl_x' := (proj1_sig fl_x'_by).
Definition un_x1_by := after (run_ops [OSendTo [x44]] fl_x'). Notation un_x1 := (proj1_sig un_x1_by).
Definition un_p : packet := nth 0 (carried fl_x' un_x1) [].
Definition un_y'_by := after (run_op (ORecvFrom 1500) (arrive local [un_p] fl_y')). Notation un_y' := (proj1_sig un_y'_by).
Definition un_q : packet := nth 0 (carried fl_y' un_y') [].
Definition un_x'_by := after (run_op OFlush (arrive peer [un_q] un_x1)). Notation un_x' := (proj1_sig un_x'_by).
Ltac runs := apply after_eq; vm_compute; reflexivity.
Ltac sends := unfold sent_to; vm_compute; reflexivity.
Theorem C88_lost_packet_refuted : exists ax al ay c0 s0 c s c1 s1 c2 s2, untouched c0 /\ untouched s0 /\ handshake ax al ay c0 s0 c s /\
  first_lost ax ay 1500 [x41] [x42] [x43] KTimedOut c s c1 s1 /\ unheard ax ay 1500 [x44] c1 s1 c2 s2.
Proof.
  exists local, listener, peer, client_start, server_start, hs_c, hs_s, fl_x', fl_y', un_x', un_y'. split; [repeat split|]. split; [repeat split|]. split; [|split].
  - exists [syn_of client_start], hs_r, [], peer, hs_w. split; [runs|]. split; [sends|]. split; [reflexivity|]. split; [runs|]. split; [sends|]. split; [runs|sends].
  - exists fl_x1, fl_p1, fl_p2, fl_p3, fl_y1, fl_q2, fl_q3, fl_x2, fl_p, fl_y2, fl_q4, fl_x3, fl_p', fl_q5.
    split; [split; [runs|sends]|]. split; [runs|]. split; [sends|]. split; [runs|]. split; [sends|]. split; [runs|]. split; [sends|]. split; [runs|]. split; [sends|]. split; [runs|]. split; [sends|runs].
  - exists un_x1, un_p, un_q. split; [split; [runs|sends]|]. split; [runs|]. split; [sends|]. split; [runs|vm_compute; reflexivity].
Qed.
Print Assumptions C88_lost_packet_refuted.

(** REFUTED for every message: when the answers to two messages are lost, everything after them is lost.  Both messages were read, but the sender repeats the first packet, and the reader
    files this old packet at the head of its buffer.  Of all messages sent afterwards, up to the end of the sequence numbers, none is read; every one of them is acknowledged, so that the
    sender's flushes succeed. *)
Theorem C88_answers_refuted : forall ax ay n d1 d2 ds k x y, joined ax ay x y -> listens x y -> lead x <= 32767 -> 1 < s_max_retries (sk x) -> s_congestion_timeout (sk x) * 2 < 2 ^ 64 ->
  Forall (fun d : list byte => (0 < length d <= 1380)%nat) (d1 :: d2 :: ds) -> (1380 <= n)%nat -> is_timeout k = true -> s_seq_nr (sk x) + 2 + Z.of_nat (length ds) <= 65535 ->
  exists x1 y1 x2 y2, answers_lost ax ay n d1 d2 k x y x1 y1 /\ all_unheard ax ay n ds x1 y1 x2 y2.
Proof. intros ax ay n d1 d2 ds k x y HJ HL Hl HM HC HF Hn Hk HQ. now apply answers_all. Qed.
Print Assumptions C88_answers_refuted.
(** So it is after every handshake, for up to 65531 further messages of the client. *)
Theorem C88_connection_refuted : forall ac al asv c0 s0 n d1 d2 ds k, untouched c0 -> untouched s0 -> Forall (fun d : list byte => (0 < length d <= 1380)%nat) (d1 :: d2 :: ds) -> (1380 <= n)%nat -> is_timeout k = true ->
  Z.of_nat (length ds) <= 65531 -> exists c s c1 s1 c2 s2, handshake ac al asv c0 s0 c s /\ answers_lost ac asv n d1 d2 k c s c1 s1 /\ all_unheard ac asv n ds c1 s1 c2 s2.
Proof.
  intros ac al asv c0 s0 n d1 d2 ds k HC HS HF Hn Hk HN. destruct (handshake_runs ac al asv c0 s0 HC HS) as (c & s & H1 & H2 & H3 & _ & _ & _ & _ & L & (C1 & C2) & _ & _ & Q).
  destruct (answers_all ac asv n d1 d2 ds k c s H2 H3 HF Hn Hk) as (c1 & s1 & c2 & s2 & A & U); [lia|lia|rewrite C1; reflexivity|lia|]. exists c, s, c1, s1, c2, s2. auto.
Qed.
Print Assumptions C88_connection_refuted.

(** What does hold: when only packets at the end of a burst are lost, they are recovered.  For any number of bursts of messages of one packet, each of a size the least window admits,
    where of every burst any number of packets from some point on is lost, any number of times within [x]'s patience: every message is read, once and in order, and every flush succeeds. *)
Theorem C88_tail_partial : forall ax ay n bs x y, joined ax ay x y -> listens x y -> lead x <= 32635 -> s_congestion_timeout (sk x) <= 60000 -> (1380 <= n)%nat -> Forall (repairable (s_max_retries (sk x))) bs ->
  exists x' y', bursts ax ay n bs x y x' y' /\ joined ax ay x' y' /\ listens x' y' /\ (listens y x -> listens y' x').
Proof. intros ax ay n bs x y. exact (bursts_run ax ay n bs x y). Qed.
Print Assumptions C88_tail_partial.
Theorem C88_tail_connection_partial : forall ac al asv c0 s0 n bs, untouched c0 -> untouched s0 -> (1380 <= n)%nat -> Forall (repairable 5) bs ->
  exists c s c1 s1, handshake ac al asv c0 s0 c s /\ bursts ac asv n bs c s c1 s1 /\ joined ac asv c1 s1.
Proof.
  intros ac al asv c0 s0 n bs HC HS Hn HB. destruct (handshake_runs ac al asv c0 s0 HC HS) as (c & s & H1 & H2 & H3 & _ & _ & _ & _ & L & (C1 & C2) & _).
  destruct (bursts_run ac asv n bs c s H2 H3) as (c1 & s1 & B & J & _); [lia|lia|exact Hn|rewrite C2; exact HB|]. exists c, s, c1, s1. auto.
Qed.
Print Assumptions C88_tail_connection_partial.

(** ** Examples *)
(** Three messages, of which the last two are lost, the second of them twice. *)
Definition ex_x1_by := after (run_ops [OSendTo [x41]; OSendTo [x42]; OSendTo [x43]] hs_c). Notation ex_x1 := (proj1_sig ex_x1_by).
Definition ex_r1 := run_op (ORecvFrom 1500) (arrive local [nth 0 (carried hs_c ex_x1) []] hs_s).
Definition ex_e1 := [RxDgram (nth 0 (carried hs_s (snd ex_r1)) []) peer].
Definition ex_f1 := run_op OFlush (script (ex_e1 ++ [RxErr KTimedOut; RxErr KWouldBlock]) ex_x1).
Definition ex_r2 := run_op (ORecvFrom 1500) (arrive local [nth 1 (carried ex_x1 (snd ex_f1)) []] (snd ex_r1)).
Definition ex_e2 := ex_e1 ++ [RxErr KTimedOut; RxErr KWouldBlock; RxDgram (nth 0 (carried (snd ex_r1) (snd ex_r2)) []) peer].
Definition ex_f2 := run_op OFlush (script (ex_e2 ++ [RxErr KTimedOut]) ex_x1).
Definition ex_r3 := run_op (ORecvFrom 1500) (arrive local [nth 2 (carried ex_x1 (snd ex_f2)) []] (snd ex_r2)).
Definition ex_e3 := ex_e2 ++ [RxErr KTimedOut; RxDgram (nth 0 (carried (snd ex_r2) (snd ex_r3)) []) peer].
Example C88_example : repairable 5 ([[x41]; [x42]; [x43]], 1%nat, [[KTimedOut; KWouldBlock]; [KTimedOut]]) /\
  (fst ex_r1, fst ex_f1, fst ex_r2, fst ex_f2, fst ex_r3, fst (run_op OFlush (script ex_e3 ex_x1))) =
  (Ret (VData [x41] local), Fail Pend, Ret (VData [x42] local), Fail Pend, Ret (VData [x43] local), Ret VUnit).
Proof. split; [cbn; repeat split; try lia; repeat (constructor; [cbn; repeat split; try lia; try discriminate; repeat constructor|]); constructor|vm_compute; reflexivity]. Qed.
