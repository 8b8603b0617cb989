(** C103: the example program echo-server and a client of it. *)
From Verif Require Import UtilProofs SpecEcho EchoProofs Samples.
Require Import Lia.
Local Open Scope Z_scope.

(** The number the new connection of the listener draws for its packets. *)
Notation server_number s0 := (w_rand (wd s0) (S (w_rtick (wd s0))) mod 65536).

(** Any message that fits in one packet, any worlds in which nothing happened yet, any clocks: the client gets its message back, then the end of the stream; the server's task ends; both are closed.
    Only if the server's first number is in the lower half, and not 0. *)
Theorem C103_echo_partial : forall ac al asv la l d n c0 s0, untouched c0 -> untouched s0 -> 1 <= server_number s0 <= 32768 -> (0 < length d <= 1380)%nat -> (1380 <= n)%nat ->
  echo_runs ac al asv la l d n c0 s0.
Proof. exact echo_all. Qed.
Print Assumptions C103_echo_partial.

(** From the upper half, the server holds its answer back: [send_to] reports success, nothing is sent, and closing waits for an acknowledgement of it (socket.rs:674-679). *)
Theorem C103_held_refuted : forall ac al asv la l d c0 s0, untouched c0 -> untouched s0 -> 32768 < server_number s0 -> (0 < length d <= 1380)%nat -> echo_waits ac al asv la l d c0 s0.
Proof. exact echo_held. Qed.
Print Assumptions C103_held_refuted.

(** The same flaw in a conversation (C83): the first message of a server whose first number is 0 is acknowledged by the client and not handed to it: the read still waits, with nothing buffered. *)
Theorem C83_first_zero_refuted : forall ac al asv c0 s0 d n, untouched c0 -> untouched s0 -> server_number s0 = 0 -> (0 < length d <= 1380)%nat ->
  exists c s s1 p q c1, handshake ac al asv c0 s0 c s /\ joined ac asv c s /\ run_op (OSendTo d) s = (Ret (VLen (Z.of_nat (length d))), s1) /\ sent_to ac [p] s s1 /\ payload p = Some d /\
    run_op (ORecvFrom n) (arrive asv [p] c) = (Fail Pend, c1) /\ sent_to asv [q] c c1 /\ get_type q = Some PState /\ ack_nr q = seq_nr p /\ at_ease c1.
Proof. exact zero_lost. Qed.
Print Assumptions C83_first_zero_refuted.

(** ** Examples *)
Definition newly (s s' : st) : list packet := map snd (skipn (length (w_sent (wd s))) (w_sent (wd s'))).
Notation client_start := (mkSt blank (sample_world true 300 [])).
Notation server_start r := (mkSt blank (sample_world true r [])).
(** The server's side, given what the client sent, and then the events [evs]. *)
Definition serve (r : Z) (there : list packet) (evs : list rx) : outcome unit * st :=
  match there with
  | [] => (Fail Pend, server_start r)
  | syn :: more => match accept (RxDgram syn local) (Ok peer) (Ok tt) (server_start r) with
    | (Ret _, s) => handle_client (script evs (arrive local more s))
    | (Fail e, s) => (Fail e, s)
    end
  end.
(** What a reader got, until it waits or the stream ends. *)
Fixpoint printed (k : nat) (n : nat) (s : st) : list byte * option failure * st :=
  match k with
  | O => ([], None, s)
  | S k => match run_op (ORecvFrom n) s with
    | (Ret (VData [] _), s') => ([], None, s')
    | (Ret (VData d _), s') => let '(out, e, t) := printed k n s' in (d ++ out, e, t)
    | (Ret _, s') => ([], None, s')
    | (Fail e, s') => ([], Some e, s')
    end
  end.
Definition client (d : list byte) (back : list packet) : list byte * option failure * st :=
  match echo_client peer [] d (arrive peer back client_start) with
  | (Ret _, s) => printed 20 2000 s
  | (Fail e, s) => ([], Some e, s)
  end.
(** Both again from the start, each time with what the other sent the time before. *)
Fixpoint rounds (k : nat) (r : Z) (d : list byte) : list packet * list packet :=
  match k with
  | O => ([], [])
  | S k => let (there, back) := rounds k r d in (newly client_start (snd (client d back)), newly (server_start r) (snd (serve r there [])))
  end.
Example C103_start : untouched client_start /\ forall r, untouched (server_start r).
Proof. split; [|intros r]; (split; [reflexivity|split; [reflexivity|intros i; reflexivity]]). Qed.
Example C103_example : server_number (server_start 500) = 500 /\ let d := repeat x41 1000 in let (there, back) := rounds 8 500 d in let (r, s) := serve 500 there [] in let '(out, e, c) := client d back in
  map get_type there = [Some PSyn; Some PData; Some PState; Some PState] /\ map get_type back = [Some PState; Some PState; Some PData; Some PFin] /\
  r = Ret tt /\ s_state (sk s) = Closed /\ out = d /\ e = None /\ s_state (sk c) = Closed.
Proof. vm_compute. repeat split; reflexivity. Qed.
(** From the upper half: both wait; the answer is sent when the server's timer expires. *)
Example C103_held_example : server_number (server_start 40000) = 40000 /\ let d := repeat x41 1000 in let (there, back) := rounds 8 40000 d in
  map get_type there = [Some PSyn; Some PData] /\ map get_type back = [Some PState; Some PState] /\ fst (serve 40000 there []) = Fail Pend /\ fst (client d back) = ([], Some Pend) /\
  map get_type (newly (server_start 40000) (snd (serve 40000 there [RxErr KTimedOut]))) = [Some PState; Some PState; Some PData].
Proof. vm_compute. repeat split; reflexivity. Qed.
(** If the server's first number is 0 the answer is lost without an error: the client takes packet 0 for one it delivered already ([last_dropped] starts at 0, socket.rs:202 and 446-447), acknowledges it and
    then is told that the stream has ended; the server's task ends well. *)
Theorem C103_lost_refuted : server_number (server_start 0) = 0 /\ let d := repeat x41 1000 in let (there, back) := rounds 8 0 d in let (r, s) := serve 0 there [] in let '(out, e, c) := client d back in
  map get_type there = [Some PSyn; Some PData; Some PState; Some PState] /\ map get_type back = [Some PState; Some PState; Some PData; Some PFin] /\ map payload back = [Some []; Some []; Some d; Some []] /\
  r = Ret tt /\ s_state (sk s) = Closed /\ out = [] /\ e = None /\ s_state (sk c) = Closed.
Proof. vm_compute. repeat split; reflexivity. Qed.
Print Assumptions C103_lost_refuted.
