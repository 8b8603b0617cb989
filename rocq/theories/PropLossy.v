(** C87: stop-and-wait over a network that loses packets and answers. *)
From Verif Require Import UtilProofs SpecLossy TransferProofs LossyProofs Samples.
Require Import Lia.
Local Open Scope Z_scope.

Notation server_number s0 := (w_rand (wd s0) (S (w_rtick (wd s0))) mod 65536).

(** From any two ends of a connection with nothing under way: [x] sends any number of messages of one packet and flushes after each; of every message any transmissions but
    the last, and the answers to any of them, may get lost, as long as [x] is ready to wait that often; [y]'s timer may expire meanwhile.  Every message is returned by one read
    of [y], once and in order, and every flush succeeds. *)
Theorem C87_lossy : forall ax ay n ms x y, joined ax ay x y -> listens x y -> s_congestion_timeout (sk x) <= 60000 ->
  s_congestion_timeout (sk y) * 2 ^ Z.of_nat (all_expiries ms) < 2 ^ 64 -> Forall (survivable n (s_max_retries (sk x)) (s_max_retries (sk y))) ms ->
  exists x' y', lossy_talk ax ay n ms x y x' y' /\ at_ease x' /\ s_congestion_timeout (sk x') <= 60000.
Proof. exact lossy_from_rest. Qed.
Print Assumptions C87_lossy.

(** After the handshake, either side may be the speaker, the server if its random first number lets it speak (C83). *)
Theorem C87_connection : forall ac al asv c0 s0 n ms (client_speaks : bool), untouched c0 -> untouched s0 -> (client_speaks = false -> 0 < server_number s0 <= 32768) ->
  Forall (survivable n 5 5) ms -> (all_expiries ms <= 54)%nat ->
  exists c s x' y', handshake ac al asv c0 s0 c s /\
    if client_speaks then lossy_talk ac asv n ms c s x' y' else lossy_talk asv ac n ms s c x' y'.
Proof.
  intros ac al asv c0 s0 n ms b HC HS HB HF HE. destruct (handshake_runs ac al asv c0 s0 HC HS) as (c & s & H1 & H2 & H3 & _ & H4 & H5 & _ & _ & (C1 & C2) & S1 & S2 & _).
  assert (HP : 1000 * 2 ^ Z.of_nat (all_expiries ms) < 2 ^ 64).
  { apply Z.le_lt_trans with (1000 * 2 ^ 54); [apply Z.mul_le_mono_nonneg_l; [lia|apply Z.pow_le_mono_r; lia]|reflexivity]. }
  exists c, s. destruct b.
  - destruct (lossy_from_rest ac asv n ms c s H2 H3) as (x' & y' & H & _); [rewrite C1; lia|rewrite S1; exact HP|rewrite C2, S2; exact HF|]. eauto.
  - rewrite <- H4 in HB. destruct (lossy_from_rest asv ac n ms s c (joined_sym _ _ _ _ H2) (H5 (HB eq_refl))) as (x' & y' & H & _); [rewrite S1; lia|rewrite C1; exact HP|rewrite C2, S2; exact HF|]. eauto.
Qed.
Print Assumptions C87_connection.

(** ** Example *)
Definition carried (s s' : st) : list packet := map snd (skipn (length (w_sent (wd s))) (w_sent (wd s'))).
Notation client_start := (mkSt blank (sample_world true 300 [])).
Notation server_start r := (mkSt blank (sample_world true r [])).
Definition meet (r : Z) : st * st :=
  let s := snd (accept (RxDgram (syn_of client_start) local) (Ok peer) (Ok tt) (server_start r)) in
  let c := snd (connect (Ok [peer]) (Ok tt) (arrive peer (carried (server_start r) s) client_start)) in (c, s).
(** The message "HI": the first transmission is lost, the second one's answer is lost, the third succeeds.  The server, whose timer expires once before anything arrives, reads "HI" once; the
    copy waits before its next read, which answers it; that answer ends the client's flush.  Then "YO" gets through at once, behind the copy. *)
Example C87_example : let (c, s) := meet 500 in let hi := [x48; x49] in let yo := [x59; x4f] in
  let c1 := snd (run_op (OSendTo hi) c) in
  let f1 := run_op OFlush (script [RxErr KTimedOut; RxErr KWouldBlock] c1) in
  let ps := carried c (snd f1) in
  let r1 := run_op (ORecvFrom 100) (script (RxErr KTimedOut :: arrivals local [([], nth 1 ps [])]) s) in
  let s1 := script (arrivals local [([], nth 2 ps [])]) (snd r1) in
  let r2 := run_op (ORecvFrom 100) s1 in
  let q := last (carried s (snd r2)) [] in
  let f2 := run_op OFlush (script [RxErr KTimedOut; RxErr KWouldBlock; RxDgram q peer] c1) in
  let c2 := snd (run_op (OSendTo yo) (snd f2)) in
  let r3 := run_op (ORecvFrom 100) (script (arrivals local [([], last (carried c (c2)) [])]) s1) in
  let q3 := last (carried s (snd r3)) [] in
  (fst f1, map get_type ps, map payload ps) = (Fail Pend, repeat (Some PData) 3, repeat (Some hi) 3) /\ nth 0 ps [] <> nth 1 ps [] /\
  fst r1 = Ret (VData hi local) /\ fst r2 = Fail Pend /\ fst f2 = Ret VUnit /\ fst r3 = Ret (VData yo local) /\ fst (run_op OFlush (script [RxDgram q3 peer] c2)) = Ret VUnit /\
  survivable 100 5 5 (hi, [(KTimedOut, false); (KWouldBlock, true)], [[KTimedOut]; []]).
Proof.
  vm_compute. repeat split; try discriminate; try reflexivity; try lia; repeat constructor.
Qed.
