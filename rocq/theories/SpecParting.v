(** Specification of C89 and C90: the opening and the end of a connection over a network that loses packets and answers.  (For the opening see [opening] in [SpecTransfer].) *)
From Verif Require Export SpecLossy.
Local Open Scope Z_scope.

(** [x], at address [ax], closes while [y], at address [ay], reads.  [x]'s timer expires as [ks] tells, each time it sends a FIN again.  The last FIN gets through, after [y]'s
    timer expired as [w] tells: [y] is told that the stream has ended.  What [y] sent last is what [x] waits for.  (What [x] sent, it sent without that answer.) *)
Definition parting (ax ay : addr) (n : nat) (ks w : list kind) (x y x' y' : st) : Prop := exists fins x1 before q,
  run_op OClose (script (map RxErr ks) x) = (Fail Pend, x1) /\ sent_to ay fins x x1 /\ length fins = S (length ks) /\
  run_op (ORecvFrom n) (script (map RxErr w ++ [RxDgram (last fins []) ax]) y) = (Ret (VData [] ax), y') /\ w_sent (wd y') = w_sent (wd y) ++ before ++ [(ax, q)] /\
  run_op OClose (script (map RxErr ks ++ [RxDgram q ay]) x) = (Ret VUnit, x') /\ sent_to ay fins x x' /\
  s_state (sk x') = Closed /\ s_state (sk y') = Closed /\ run_op OClose y' = (Ret VUnit, y').
(** [ks] and [w] are timeouts, fewer than the ends are ready for; more than 48 doublings could overflow [x]'s timer. *)
Definition patient (rx ry : Z) (ks w : list kind) : Prop := Forall (fun k => is_timeout k = true) ks /\ Z.of_nat (length ks) < rx /\ (length ks <= 48)%nat /\
  Forall (fun k => is_timeout k = true) w /\ Z.of_nat (length w) < ry.

(** [x] closes; some FIN, the [i]th, reaches [y], which is told that the stream has ended and answers, but the answer is lost.  Whatever [y] is asked afterwards and whatever
    else reaches it, it sends nothing any more; so [x], whose timer expires as [ks] tells, is not answered, and its close fails. *)
Definition spurned (ax ay : addr) (n : nat) (ks : list kind) (i : nat) (x y x' y' : st) : Prop := exists fins q,
  run_op OClose (script (map RxErr ks) x) = (Fail (Throw KTimedOut), x') /\ sent_to ay fins x x' /\ length fins = S (length ks) /\ (i < length fins)%nat /\
  run_op (ORecvFrom n) (arrive ax [nth i fins []] y) = (Ret (VData [] ax), y') /\ sent_to ax [q] y y' /\
  (forall evs ops, w_sent (wd (snd (run_ops ops (script evs y')))) = w_sent (wd y')).

(** The [i]th SYN of an opening also reached the listener, but not the answer to it: the connection made for it starts from [s1].  It is a connection of its own with the same client;
    the listener's caller is handed both. *)
Definition accepted_too (ac al : addr) (ks : list kind) (i : nat) (c0 s1 s2 : st) : Prop := exists syns r l la c1,
  connect (Ok (al :: l)) (Ok tt) (script (map RxErr ks) c0) = (Fail Pend, c1) /\ sent_to al syns c0 c1 /\ (i < length syns)%nat /\
  accept (RxDgram (nth i syns []) ac) (Ok la) (Ok tt) s1 = (Ret ac, s2) /\ sent_to ac [r] s1 s2.
(** [z], accepted from address [az], closes; the FIN it sends reaches [c], another socket, which reads: the stream of [c] ends. *)
Definition ended_by (ac az : addr) (n : nat) (z c : st) : Prop := exists f z' c' src,
  run_op OClose z = (Fail Pend, z') /\ sent_to ac [f] z z' /\ run_op (ORecvFrom n) (arrive az [f] c) = (Ret (VData [] src), c') /\ s_state (sk c') = Closed.
