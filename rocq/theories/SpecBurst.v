(** Specification of C88: bursts, several messages sent without waiting for acknowledgements, and what losses do to them. *)
From Verif Require Export SpecLossy.
Local Open Scope Z_scope.

(** [x], at address [ax], sends the messages [ds] to [y], at address [ay], without waiting; [ps] are the packets. *)
Definition says (ay : addr) (ds : list (list byte)) (ps : list packet) (x x' : st) : Prop :=
  run_ops (map OSendTo ds) x = (map (fun d => Ret (VLen (Z.of_nat (length d)))) ds, x') /\ sent_to ay ps x x'.

(** ** Tail losses *)
(** [x1] flushes after a burst; so far it has seen [evs] and sent [rs] again.  Then, for each message of [ds] in turn: its timer expires as [ks] tells, each time it sends
    one packet; the last of these gets through, [y] reads the message, and the answer reaches [x1].  [evs'] and [rs'] are what [x1] has seen and sent in the end. *)
Inductive recovered (ax ay : addr) (n : nat) (x1 : st) : list rx -> list packet -> list (list kind) -> list (list byte) -> st -> list rx -> list packet -> st -> Prop :=
| rec_nil evs rs y : recovered ax ay n x1 evs rs [] [] y evs rs y
| rec_cons evs rs ks kss d ds y x2 rs1 y1 q evs' rs' y' :
    run_op OFlush (script (evs ++ map RxErr ks) x1) = (Fail Pend, x2) -> sent_to ay (rs ++ rs1) x1 x2 -> length rs1 = length ks ->
    run_op (ORecvFrom n) (arrive ax [last rs1 []] y) = (Ret (VData d ax), y1) -> sent_to ax [q] y y1 ->
    recovered ax ay n x1 (evs ++ map RxErr ks ++ [RxDgram q ay]) (rs ++ rs1) kss ds y1 evs' rs' y' -> recovered ax ay n x1 evs rs (ks :: kss) (d :: ds) y evs' rs' y'.
(** A burst of which only the first [j] packets get through; the others are sent again, as often as [kss] tells.  [y] reads every message once and in order; the flush succeeds. *)
Definition tail_lost (ax ay : addr) (n : nat) (ds : list (list byte)) (j : nat) (kss : list (list kind)) (x y x' y' : st) : Prop := exists x1 ps qs y1 evs rs,
  says ay ds ps x x1 /\ length ps = length ds /\ read_each ax n (firstn j ps) (firstn j ds) qs y y1 /\
  recovered ax ay n x1 (map (fun q => RxDgram q ay) qs) [] kss (skipn j ds) y1 evs rs y' /\
  run_op OFlush (script evs x1) = (Ret VUnit, x') /\ sent_to ay rs x1 x' /\ s_send_window (sk x') = [].
Inductive bursts (ax ay : addr) (n : nat) : list (list (list byte) * nat * list (list kind)) -> st -> st -> st -> st -> Prop :=
| bursts_nil x y : bursts ax ay n [] x y x y
| bursts_cons ds j kss rest x y x1 y1 x2 y2 : tail_lost ax ay n ds j kss x y x1 y1 -> bursts ax ay n rest x1 y1 x2 y2 -> bursts ax ay n ((ds, j, kss) :: rest) x y x2 y2.
(** The bytes all packets of a burst but the last take, with headers. *)
Definition ahead_of_last (ds : list (list byte)) : Z := fold_right (fun d n => 20 + Z.of_nat (length d) + n) 0 (removelast ds).
(** A burst of messages of one packet each that needs no room beyond the least window (two segments); the lost packets are sent again at least once each and at most as often
    as [x] is ready to wait, and not more than 48 times. *)
Definition repairable (r : Z) (b : list (list byte) * nat * list (list kind)) : Prop := let '(ds, j, kss) := b in
  Forall (fun d : list byte => (0 < length d <= 1380)%nat) ds /\ ahead_of_last ds < 2800 /\ (j <= length ds)%nat /\ length kss = (length ds - j)%nat /\
  Forall (fun ks => ks <> [] /\ Forall (fun k => is_timeout k = true) ks /\ Z.of_nat (length ks) < r /\ (length ks <= 48)%nat) kss.

(** ** Other losses *)
Notation datagrams a qs := (map (fun q => RxDgram q a) qs).
(** Of three messages the first packet is lost.  [y] keeps the others and answers; [x]'s timer expires and it sends the first packet again; [y] reads all three messages.  The answer
    tells [x] about the first message only; its timer expires again and it sends the second packet again.  [y]'s next read answers this copy and goes on waiting; the answer ends [x]'s flush. *)
Definition first_lost (ax ay : addr) (n : nat) (d1 d2 d3 : list byte) (k : kind) (x y x' y' : st) : Prop := exists x1 p1 p2 p3 y1 q2 q3 x2 p y2 q4 x3 p' q5,
  says ay [d1; d2; d3] [p1; p2; p3] x x1 /\
  run_op (ORecvFrom n) (arrive ax [p2; p3] y) = (Fail Pend, y1) /\ sent_to ax [q2; q3] y y1 /\
  run_op OFlush (script (datagrams ay [q2; q3] ++ [RxErr k]) x1) = (Fail Pend, x2) /\ sent_to ay [p] x1 x2 /\
  run_ops [ORecvFrom n; ORecvFrom n; ORecvFrom n] (arrive ax [p] y1) = ([Ret (VData d1 ax); Ret (VData d2 ax); Ret (VData d3 ax)], y2) /\ sent_to ax [q4] y1 y2 /\
  run_op OFlush (script (datagrams ay [q2; q3] ++ [RxErr k; RxDgram q4 ay; RxErr k]) x1) = (Fail Pend, x3) /\ sent_to ay [p; p'] x1 x3 /\
  run_op (ORecvFrom n) (arrive ax [p'] y2) = (Fail Pend, y') /\ sent_to ax [q5] y2 y' /\
  run_op OFlush (script (datagrams ay [q2; q3] ++ [RxErr k; RxDgram q4 ay; RxErr k; RxDgram q5 ay]) x1) = (Ret VUnit, x').
(** Two messages arrive and are read, but both answers are lost.  [x]'s timer expires once, and it sends the first packet again.  This copy reaches [y]; [y]'s read goes on
    waiting, having answered it; the answer ends [x]'s flush. *)
Definition answers_lost (ax ay : addr) (n : nat) (d1 d2 : list byte) (k : kind) (x y x' y' : st) : Prop := exists x1 p1 p2 qs y1 p x2 q,
  says ay [d1; d2] [p1; p2] x x1 /\ read_each ax n [p1; p2] [d1; d2] qs y y1 /\
  run_op OFlush (script [RxErr k] x1) = (Fail Pend, x2) /\ sent_to ay [p] x1 x2 /\
  run_op (ORecvFrom n) (arrive ax [p] y1) = (Fail Pend, y') /\ sent_to ax [q] y1 y' /\
  run_op OFlush (script [RxErr k; RxDgram q ay] x1) = (Ret VUnit, x').
(** A message that gets through without loss and is never read: [y]'s read goes on waiting, although its answer ends [x]'s flush. *)
Definition unheard (ax ay : addr) (n : nat) (d : list byte) (x y x' y' : st) : Prop := exists x1 p q,
  says ay [d] [p] x x1 /\ run_op (ORecvFrom n) (arrive ax [p] y) = (Fail Pend, y') /\ sent_to ax [q] y y' /\
  run_op OFlush (arrive ay [q] x1) = (Ret VUnit, x') /\ s_send_window (sk x') = [].
Inductive all_unheard (ax ay : addr) (n : nat) : list (list byte) -> st -> st -> st -> st -> Prop :=
| unheard_nil x y : all_unheard ax ay n [] x y x y
| unheard_cons d ds x y x1 y1 x2 y2 : unheard ax ay n d x y x1 y1 -> all_unheard ax ay n ds x1 y1 x2 y2 -> all_unheard ax ay n (d :: ds) x y x2 y2.
