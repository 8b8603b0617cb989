(** Specification of C87: one endpoint speaks, the other reads, over a network that loses packets and answers. *)
From Verif Require Export SpecTransfer.
Local Open Scope Z_scope.

(** Datagrams that reach a socket from address [a], each after some expiries of the timer. *)
Definition arrivals (a : addr) (l : list (list kind * packet)) : list rx := flat_map (fun g => map RxErr (fst g) ++ [RxDgram (snd g) a]) l.
(** Of the packets [ps], those whose entry in [bs] says that they got through. *)
Definition through (bs : list bool) (ps : list packet) : list packet := map snd (filter fst (combine bs ps)).

(** One message of one packet from [x], at address [ax], to [y], at address [ay].  [fates] has an entry for every transmission that comes to nothing: the kind of timeout
    [x] sees, and whether it is the answer that was lost (the packet got through) or the packet.  The transmission after these and the answer to it both get through.  [x] sends
    and flushes: each timeout makes it transmit again, and the answer [q] ends the flush.  [y] reads: the first packet that gets through, after the timeouts
    [y] sees meanwhile, is what the read returns.  The copies that get through later wait for [y]'s next read; when there is one, it answers them and goes on waiting.  [q]
    is what [y] sent last. *)
Definition lossy (ax ay : addr) (d : list byte) (n : nat) (fates : list (kind * bool)) (waits : list (list kind)) (x y x' y' : st) : Prop :=
  exists x1 p ps q x2 g gs y1 y2 before,
  run_op (OSendTo d) x = (Ret (VLen (Z.of_nat (length d))), x1) /\ sent_to ay [p] x x1 /\
  run_op OFlush (script (map (fun f => RxErr (fst f)) fates) x1) = (Fail Pend, x2) /\ sent_to ay ps x1 x2 /\ length ps = length fates /\
  run_op OFlush (script (map (fun f => RxErr (fst f)) fates ++ [RxDgram q ay]) x1) = (Ret VUnit, x') /\ sent_to ay ps x1 x' /\ s_send_window (sk x') = [] /\
  combine waits (through (map snd fates ++ [true]) (p :: ps)) = g :: gs /\
  run_op (ORecvFrom n) (script (arrivals ax [g]) y) = (Ret (VData d ax), y1) /\ y' = script (arrivals ax gs) y1 /\
  (if gs then y2 = y1 else run_op (ORecvFrom n) y' = (Fail Pend, y2)) /\ w_sent (wd y2) = w_sent (wd y) ++ before ++ [(ax, q)].
(** A conversation in which only [x] speaks; each entry is a message, what becomes of its transmissions and the timeouts [y] sees before each packet that gets through. *)
Inductive lossy_talk (ax ay : addr) (n : nat) : list (list byte * list (kind * bool) * list (list kind)) -> st -> st -> st -> st -> Prop :=
| lossy_nil x y : lossy_talk ax ay n [] x y x y
| lossy_cons d fates waits rest x y x1 y1 x2 y2 : lossy ax ay d n fates waits x y x1 y1 -> lossy_talk ax ay n rest x1 y1 x2 y2 -> lossy_talk ax ay n ((d, fates, waits) :: rest) x y x2 y2.

(** The timeouts [y] sees. *)
Definition expiries (waits : list (list kind)) : nat := list_sum (map (@length kind) waits).
Definition all_expiries (ms : list (list byte * list (kind * bool) * list (list kind))) : nat := list_sum (map (fun m => expiries (snd m)) ms).
(** A message of one packet that fits in [y]'s buffer; fewer failed transmissions than the [rx] waits [x] is ready for, and not more than 48 of them (more
    doublings would overflow the timer); before every packet that gets through fewer timeouts than the [ry] waits [y] is ready for. *)
Definition survivable (n : nat) (rx ry : Z) (m : list byte * list (kind * bool) * list (list kind)) : Prop := let '(d, fates, waits) := m in
  (0 < length d <= 1380)%nat /\ (length d <= n)%nat /\
  Forall (fun f => is_timeout (fst f) = true) fates /\ Z.of_nat (length fates) < rx /\ (length fates <= 48)%nat /\
  length waits = S (length (filter snd fates)) /\ Forall (fun w => Forall (fun k => is_timeout k = true) w /\ Z.of_nat (length w) < ry) waits.
