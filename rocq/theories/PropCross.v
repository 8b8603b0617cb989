(** C100: both ends close at the same time. *)
From Verif Require Import CrossProofs Samples PropTransfer.
Require Import Lia.
Local Open Scope Z_scope.

(** C100.  Two ends of a connection with nothing under way ([joined], reached by the handshake and kept by every conversation: C83) that close at the same time: each answers the FIN of the other, both
    closes succeed, both ends are closed. *)
Theorem C100_both_partial : forall ax ay x y, joined ax ay x y -> exists x' y', both_close ax ay x y x' y'.
Proof. exact both_close_runs. Qed.
Print Assumptions C100_both_partial.

(** With a message of one packet on its way it is different, for any two such ends: although nothing is lost, the one that sent it sees its close fail, because after the FIN of the other it no longer
    looks at acknowledgements; and the message, which the other end acknowledged, is handed to nobody. *)
Theorem C100_refuted : forall ax ay d ks x y, joined ax ay x y -> listens x y -> listens y x -> (0 < length d <= 1380)%nat -> Forall (fun k => is_timeout k = true) ks ->
  Z.of_nat (length ks) = s_max_retries (sk x) -> s_congestion_timeout (sk x) * 2 ^ Z.of_nat (length ks) < 2 ^ 64 -> exists x' y', crossed ax ay d ks x y x' y'.
Proof. intros ax ay d ks x y HJ HL HL2. exact (crossed_runs ax ay d ks x y HJ HL (proj1 HL2)). Qed.
Print Assumptions C100_refuted.

(** Such ends: right after a handshake with a server number up to 32768. *)
Example C100_example : forall ac al asv c0 s0 d, untouched c0 -> untouched s0 -> 0 < server_number s0 <= 32768 -> (0 < length d <= 1380)%nat ->
  exists c s, handshake ac al asv c0 s0 c s /\ (exists c' s', both_close ac asv c s c' s') /\
    (Z.of_nat 5 = s_max_retries (sk c) -> s_congestion_timeout (sk c) * 2 ^ 5 < 2 ^ 64 -> exists c' s', crossed ac asv d (repeat KTimedOut 5) c s c' s').
Proof.
  intros ac al asv c0 s0 d HC HS HN Hd. destruct (C83_handshake ac al asv c0 s0 HC HS) as (c & s & H1 & H2 & H3 & _ & H5). exists c, s. split; [exact H1|]. split; [exact (C100_both_partial ac asv c s H2)|].
  intros M T. apply C100_refuted; try assumption; [exact (H5 HN)|repeat constructor].
Qed.
(** In numbers. *)
Example C100_run : let (c, s) := meet 500 in
  let c1 := snd (run_op (OSendTo [x41]) c) in let p := hd [] (carried c c1) in
  let f := hd [] (carried s (snd (run_op OClose s))) in let r := hd [] (carried c1 (snd (run_op OClose (arrive peer [f] c1)))) in
  let s' := snd (run_op OClose (arrive local [p; r] s)) in let g := nth 1 (carried s s') [] in
  (fst (run_op OClose (arrive local [p; r] s)), s_state (sk s'), get_type g, ack_nr g, seq_nr p) = (Ret VUnit, Closed, Some PFin, 2, 2) /\
  fst (run_op OClose (script (RxDgram f peer :: RxDgram g peer :: repeat timeout 5) c1)) = Fail (Throw KTimedOut) /\
  (let c' := snd (run_op OClose (arrive peer [f] c)) in (fst (run_op OClose (arrive peer [f] c)), s_state (sk c'), length (carried c c'))) = (Ret VUnit, Closed, 2%nat).
Proof. vm_compute. auto. Qed.
