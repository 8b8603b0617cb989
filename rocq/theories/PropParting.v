(** C89: the opening and the end of a connection over a network that loses packets and answers.  C90: a client has one connection at the server. *)
From Verif Require Import UtilProofs SpecParting TransferProofs LossyProofs PartingProofs Samples.
Require Import Lia.
Local Open Scope Z_scope.

Notation server_number s0 := (w_rand (wd s0) (S (w_rtick (wd s0))) mod 65536).

(** However many of the first four SYNs or the answers to them are lost, the connect succeeds when the next SYN and its answer get through, and the two ends fit together. *)
Theorem C89_opening : forall ac al asv ks c0 s0, untouched c0 -> untouched s0 -> Forall (fun k => is_timeout k = true) ks -> (length ks < 5)%nat ->
  exists c s, opening ac al asv ks c0 s0 c s /\ joined ac asv c s /\ listens c s /\ (0 < server_number s0 <= 32768 -> listens s c).
Proof.
  intros ac al asv ks c0 s0 HC HS HF HN. destruct (opening_runs ac al asv ks c0 s0 HC HS HF HN) as (c & s & H1 & H2 & H3 & _ & H4 & H5 & _). rewrite H4 in H5. exists c, s. auto.
Qed.
Print Assumptions C89_opening.

(** From any two ends of a connection with nothing under way: [x] closes, any FINs but the last are lost, fewer than [x] is ready to repeat; the reader is told of the end, the
    close succeeds and both ends are closed.  (Missing: a lost answer to a FIN, see below.) *)
Theorem C89_parting_partial : forall ax ay n ks w x y, joined ax ay x y -> listens x y -> s_congestion_timeout (sk x) <= 60000 ->
  s_congestion_timeout (sk y) * 2 ^ Z.of_nat (length w) < 2 ^ 64 -> patient (s_max_retries (sk x)) (s_max_retries (sk y)) ks w -> exists x' y', parting ax ay n ks w x y x' y'.
Proof. intros ax ay n ks w x y HJ HL HT HTY HP. exact (parting_runs ax ay n ks w [] x y (joined_engaged _ _ _ _ _ HJ HL HT HTY) HP). Qed.
Print Assumptions C89_parting_partial.

(** A whole connection: the opening, any number of messages from one side to the other, the end; packets and answers are lost throughout, except the answers to the FINs that
    arrive.  The server can be the speaker if its random first number lets it (C83). *)
Theorem C89_connection_partial : forall ac al asv c0 s0 n ms ks0 ks w (client_speaks : bool), untouched c0 -> untouched s0 -> (client_speaks = false -> 0 < server_number s0 <= 32768) ->
  Forall (fun k => is_timeout k = true) ks0 -> (length ks0 < 5)%nat -> Forall (survivable n 5 5) ms -> patient 5 5 ks w -> (all_expiries ms + length w <= 54)%nat ->
  exists c s, opening ac al asv ks0 c0 s0 c s /\
    if client_speaks then exists c2 s2 c3 s3, lossy_talk ac asv n ms c s c2 s2 /\ parting ac asv n ks w c2 s2 c3 s3
    else exists s2 c2 s3 c3, lossy_talk asv ac n ms s c s2 c2 /\ parting asv ac n ks w s2 c2 s3 c3.
Proof. exact whole_runs. Qed.
Print Assumptions C89_connection_partial.

(** If the answer to the first FIN that arrives is lost, the close fails with TimedOut, although the reader was told of the end: the reader's socket is closed and never sends
    again, whatever it is asked and whatever reaches it.  So it is between any two ends with nothing under way. *)
Theorem C89_answer_refuted : forall ax ay n ks i x y, joined ax ay x y -> Forall (fun k => is_timeout k = true) ks -> Z.of_nat (length ks) = s_max_retries (sk x) ->
  s_congestion_timeout (sk x) * 2 ^ Z.of_nat (length ks) < 2 ^ 64 -> (i <= length ks)%nat -> exists x' y', spurned ax ay n ks i x y x' y'.
Proof. exact spurned_runs. Qed.
Print Assumptions C89_answer_refuted.
Theorem C89_connection_refuted : forall ac al asv c0 s0 n k1 k2 k3 k4 k5 i, untouched c0 -> untouched s0 -> Forall (fun k => is_timeout k = true) [k1; k2; k3; k4; k5] -> (i <= 5)%nat ->
  exists c s c' s', handshake ac al asv c0 s0 c s /\ spurned ac asv n [k1; k2; k3; k4; k5] i c s c' s'.
Proof.
  intros ac al asv c0 s0 n k1 k2 k3 k4 k5 i HC HS HF Hi. destruct (handshake_runs ac al asv c0 s0 HC HS) as (c & s & H1 & H2 & _ & _ & _ & _ & _ & _ & (C1 & C2) & _).
  destruct (spurned_runs ac asv n [k1; k2; k3; k4; k5] i c s H2 HF) as (c' & s' & P); [rewrite C2; reflexivity|rewrite C1; reflexivity|exact Hi|]. exists c, s, c', s'. auto.
Qed.
Print Assumptions C89_connection_refuted.

(** Every SYN that reaches the listener opens another connection, with the same id, whether or not the client still cares: one connect can be accepted twice (up to five times).  When the
    needless connection is closed or dropped, its FIN ends the stream of the client, whose real connection has nothing to do with it, whatever the numbers of that FIN. *)
Theorem C90_refuted : forall ac al asv az n ks i c0 s0 s1, untouched c0 -> untouched s0 -> untouched s1 -> Forall (fun k => is_timeout k = true) ks -> (length ks < 5)%nat -> (i < length ks)%nat ->
  exists c s s2, opening ac al asv ks c0 s0 c s /\ joined ac asv c s /\ accepted_too ac al ks i c0 s1 s2 /\ s_sender_connection_id (sk s2) = s_sender_connection_id (sk s) /\ ended_by ac az n s2 c.
Proof. exact twice_runs. Qed.
Print Assumptions C90_refuted.

(** ** Examples *)
Definition carried (s s' : st) : list packet := map snd (skipn (length (w_sent (wd s))) (w_sent (wd s'))).
Notation client_start := (mkSt blank (sample_world true 300 [])).
Notation server_start r := (mkSt blank (sample_world true r [])).
Notation listener := (V4 99).
Definition waiting : st := script [RxErr KTimedOut] client_start.
Definition syns : list packet := carried client_start (snd (connect (Ok [listener]) (Ok tt) waiting)).
Definition serve (i : nat) (r : Z) : st := snd (accept (RxDgram (nth i syns []) local) (Ok peer) (Ok tt) (server_start r)).
Definition client : st := snd (connect (Ok [listener]) (Ok tt) (script [RxErr KTimedOut; RxDgram (last (carried (server_start 500) (serve 1 500)) []) peer] client_start)).
(** The first SYN times out, the second is answered; the first FIN is lost, the second arrives while the server's timer has expired once; the server reads the end of the stream and answers; the
    client's close succeeds. *)
Example C89_example :
  let fins := carried client (snd (run_op OClose (script [RxErr KTimedOut] client))) in
  let r := run_op (ORecvFrom 10) (script [RxErr KWouldBlock; RxDgram (last fins []) local] (serve 1 500)) in
  let q := last (carried (serve 1 500) (snd r)) [] in
  let f := run_op OClose (script [RxErr KTimedOut; RxDgram q peer] client) in
  map get_type syns = [Some PSyn; Some PSyn] /\ s_state (sk client) = Connected /\ map get_type fins = [Some PFin; Some PFin] /\ fst r = Ret (VData [] local) /\ fst f = Ret VUnit /\
  s_state (sk (snd f)) = Closed /\ patient 5 5 [KTimedOut] [KWouldBlock].
Proof. vm_compute. repeat split; try reflexivity; try lia; repeat constructor. Qed.
(** The answer to the first FIN is lost: five timeouts later the close fails; the server has been told of the end and does not answer a further FIN. *)
Example C89_refuted_example :
  let f := run_op OClose (script (repeat (RxErr KTimedOut) 5) client) in
  let fins := carried client (snd f) in
  let r := run_op (ORecvFrom 10) (script [RxDgram (hd [] fins) local] (serve 1 500)) in
  let r2 := run_op (ORecvFrom 10) (script [RxDgram (last fins []) local] (snd r)) in
  (fst f, length fins, fst r, fst r2, carried (snd r) (snd r2)) = (Fail (Throw KTimedOut), 6%nat, Ret (VData [] local), Ret (VData [] local), []).
Proof. vm_compute. reflexivity. Qed.
(** The first SYN made a connection too, whose own first number is 40000; its FIN ends the client's stream. *)
Example C90_example :
  let z := serve 0 40000 in let f := carried z (snd (run_op OClose z)) in
  let r := run_op (ORecvFrom 10) (arrive (V4 77) f client) in
  (s_state (sk z), s_sender_connection_id (sk z) =? s_sender_connection_id (sk (serve 1 500)), map get_type f, map seq_nr f, s_ack_nr (sk client), fst r, s_state (sk (snd r))) =
    (Connected, true, [Some PFin], [40000], 500, Ret (VData [] peer), Closed).
Proof. vm_compute. reflexivity. Qed.
