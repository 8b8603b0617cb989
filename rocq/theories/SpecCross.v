(** Specification of C100: two ends that close at the same time. *)
From Verif Require Export SpecTransfer.
Local Open Scope Z_scope.

(** Both ends close; each sends its FIN before that of the other arrives.  When they arrive, both closes succeed. *)
Definition both_close (ax ay : addr) (x y x' y' : st) : Prop := exists p q a b x1 y1,
  run_op OClose x = (Fail Pend, x1) /\ sent_to ay [p] x x1 /\ run_op OClose y = (Fail Pend, y1) /\ sent_to ax [q] y y1 /\
  run_op OClose (arrive ay [q] x) = (Ret VUnit, x') /\ sent_to ay [p; a] x x' /\ s_state (sk x') = Closed /\
  run_op OClose (arrive ax [p] y) = (Ret VUnit, y') /\ sent_to ax [q; b] y y' /\ s_state (sk y') = Closed.

(** [x] sends a message while [y] closes, and closes as well.  Every datagram arrives: [y] gets the message (which nobody reads) and the answer to its FIN, and its close succeeds; [x] gets the
    FIN and the acknowledgement of its message, then nothing more while its timer expires as [ks] tells: its close fails. *)
Definition crossed (ax ay : addr) (d : list byte) (ks : list kind) (x y x' y' : st) : Prop := exists p f r g x1 x2 y1,
  run_op (OSendTo d) x = (Ret (VLen (Z.of_nat (length d))), x1) /\ sent_to ay [p] x x1 /\ run_op OClose y = (Fail Pend, y1) /\ sent_to ax [f] y y1 /\
  run_op OClose (arrive ay [f] x1) = (Fail Pend, x2) /\ sent_to ay [r] x1 x2 /\
  run_op OClose (arrive ax [p; r] y) = (Ret VUnit, y') /\ sent_to ax [f; g] y y' /\ s_state (sk y') = Closed /\ ack_nr g = seq_nr p /\
  run_op OClose (script (RxDgram f ay :: RxDgram g ay :: map RxErr ks) x1) = (Fail (Throw KTimedOut), x').
