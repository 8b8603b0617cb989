(** Specification of C103: the example program examples/echo-server.rs and a client of it. *)
From Verif Require Export SpecCat.
Local Open Scope Z_scope.

(** echo-server.rs:7-18 [handle_client]: reads once with a buffer of 1500 bytes and sends back what it got; both results are only looked at to print them.
    The socket is dropped at the end, which closes it (socket.rs:1169-1173). *)
Definition handle_client : M unit := fun s =>
  match recv_from 1500 s with
  | (Ret (d, _), s1) => (ignore_result (send_to d) ;;; drop_socket) s1
  | (Fail (Throw _), s1) => drop_socket s1
  | (Fail f, s1) => (Fail f, s1)
  end.
(** A client that connects and sends [d]; it then reads to the end of the stream ([prints], [shows]). *)
Definition echo_client (a : addr) (l : list addr) (d : list byte) : M unit := connect (Ok (a :: l)) (Ok tt) ;;; send_to d ;;; ret tt.

(** The client starts from [c0] at address [ac] and connects to the listener at [al]; the listener's [accept] (echo-server.rs:32-40) makes from [s0] a connection with address [asv].
    - The SYN the client sends makes the server accept and answer [rep]; with that answer the client sends the data; the server acknowledges them ([dack]), sends them back ([echo]) and waits.
    - The client, reading, gets [d] and answers [eack]; the server then closes with [fin] and waits; the client is told that the stream has ended and answers [fack]; the server is done.
    - Both connections are closed; nothing else was sent. *)
Definition echo_runs (ac al asv la : addr) (l : list addr) (d : list byte) (n : nat) (c0 s0 : st) : Prop := exists syn data eack fack rep dack echo fin s c1,
  get_type data = Some PData /\ payload data = Some d /\ get_type echo = Some PData /\ payload echo = Some d /\
  (exists t, echo_client al l d c0 = (Fail Pend, t) /\ sent_to al [syn] c0 t) /\
  accept (RxDgram syn ac) (Ok la) (Ok tt) s0 = (Ret ac, s) /\ sent_to ac [rep] s0 s /\
  (exists t, handle_client s = (Fail Pend, t) /\ sent_to ac [] s t) /\
  (forall more, echo_client al l d (arrive asv (rep :: more) c0) = (Ret tt, arrive asv more c1)) /\ w_sent (wd c1) = w_sent (wd c0) ++ [(al, syn); (asv, data)] /\
  (exists t, handle_client (arrive ac [data] s) = (Fail Pend, t) /\ sent_to ac [dack; echo] s t) /\
  (exists t, shows n [] (arrive asv [dack] c1) t /\ sent_to asv [] c1 t) /\
  (exists t, shows n d (arrive asv [dack; echo] c1) t /\ sent_to asv [eack] c1 t) /\
  (exists t, handle_client (arrive ac [data; eack] s) = (Fail Pend, t) /\ sent_to ac [dack; echo; fin] s t) /\
  (exists t, prints n d (arrive asv [dack; echo; fin] c1) t /\ sent_to asv [eack; fack] c1 t /\ s_state (sk t) = Closed) /\
  (exists t, handle_client (arrive ac [data; eack; fack] s) = (Ret tt, t) /\ sent_to ac [dack; echo; fin] s t /\ s_state (sk t) = Closed).

(** The same until the server has read the data: it acknowledges them and waits, without having sent them back. *)
Definition echo_waits (ac al asv la : addr) (l : list addr) (d : list byte) (c0 s0 : st) : Prop := exists syn data rep dack s c1, payload data = Some d /\
  (exists t, echo_client al l d c0 = (Fail Pend, t) /\ sent_to al [syn] c0 t) /\
  accept (RxDgram syn ac) (Ok la) (Ok tt) s0 = (Ret ac, s) /\ sent_to ac [rep] s0 s /\
  echo_client al l d (arrive asv [rep] c0) = (Ret tt, c1) /\ w_sent (wd c1) = w_sent (wd c0) ++ [(al, syn); (asv, data)] /\
  (exists t, handle_client (arrive ac [data] s) = (Fail Pend, t) /\ sent_to ac [dack] s t).
