(** Model of src/stream.rs ([UtpStream] and its [AsyncRead]/[AsyncWrite] implementations) and of [Incoming]
    (src/socket.rs:1263-1305).

    A stream is a socket behind an async [RwLock] together with four slots holding boxed futures (stream.rs:14-33).
    Clones share both (line 35-41), so polls may come from any clone; one poll call is atomic in the model.  Two threads
    polling the same slot at the same instant are not modelled.

    An operation that is suspended at an await point holds the write lock of the socket.  Nobody else can look at the
    socket meanwhile, so its intermediate state is not represented: a suspended operation is kept as the state in which
    it started, together with all events that arrived since, and every poll runs it again from there.  Theorem
    C58_batching (an operation does the same whether its events are there at the start or arrive later) is what makes
    this replay faithful.  Sends are taken to complete at once. *)
From Verif Require Export Socket.
Local Open Scope Z_scope.

(** The four slots of [UtpStreamFutures] (lines 14-33) and the future returned by the inherent [close] (line 86). *)
Inductive slot := SlRead | SlWrite | SlFlush | SlClose | SlOwnClose.
Definition slot_eqb (a b : slot) : bool :=
  match a, b with
  | SlRead, SlRead | SlWrite, SlWrite | SlFlush, SlFlush | SlClose, SlClose | SlOwnClose, SlOwnClose => true
  | _, _ => false
  end.

(** A boxed future: not yet holding the lock, suspended inside the socket operation (lock held), or completed.  [b] is
    the vector moved into the future of [poll_read] (line 114). *)
Inductive fut := Waiting (o : op) (b : list byte) | Running (o : op) (b : list byte) (seen : nat) (* events available when last polled *) | Finished.

Record stream := mkStream {
  t_st : st (* the socket, as it was when the lock was last free, with all events since *);
  t_lock : option slot (* the future holding the socket's write lock *);
  t_slot : slot -> option fut;
  t_begun : list op (* ghost: socket operations started, oldest first *);
  t_done : list (op * outcome value) (* ghost: socket operations run to their end *)
}.
Definition set_slot (sl : slot) (v : option fut) (t : stream) : stream :=
  mkStream (t_st t) (t_lock t) (fun x => if slot_eqb x sl then v else t_slot t x) (t_begun t) (t_done t).

(** [From<UtpSocket>], lines 199-208; also [bind] and [connect], lines 52-80. *)
Definition stream_new (s : st) : stream := mkStream s None (fun _ => None) [] [].

(** Panics: inside the socket operation; a completed future polled again ("async fn resumed after completion"); unwrap
    of an empty slot; [copy_from_slice] with different lengths; unwrap of [try_read] on a locked socket. *)
Inductive crash := InSocket (line : Z) | Resumed | NoFuture | Lengths | Locked.
Inductive poll (A : Type) := Ready (r : result A kind) | Pending | Crash (c : crash).
Arguments Ready {A} r. Arguments Pending {A}. Arguments Crash {A} c.

(** Runs the socket operation of a future that holds the lock.  The guard is a temporary of the awaiting statement
    (lines 116, 143, 165, 185, 87): it is dropped when the operation ends, also by a panic. *)
Definition advance (sl : slot) (o : op) (b : list byte) (t : stream) : poll (value * list byte) * stream :=
  match run_op o (t_st t) with
  | (Ret v, s) =>
    (Ready (Ok (v, b)), set_slot sl (Some Finished) (mkStream s None (t_slot t) (t_begun t) (t_done t ++ [(o, Ret v)])))
  | (Fail (Throw k), s) =>
    (Ready (Err k), set_slot sl (Some Finished) (mkStream s None (t_slot t) (t_begun t) (t_done t ++ [(o, Fail (Throw k))])))
  | (Fail (Panic l), s) =>
    (Crash (InSocket l), set_slot sl (Some Finished) (mkStream s None (t_slot t) (t_begun t) (t_done t ++ [(o, Fail (Panic l))])))
  | (Fail _, _) => (Pending, set_slot sl (Some (Running o b (length (w_in (wd (t_st t)))))) (mkStream (t_st t) (Some sl) (t_slot t) (t_begun t) (t_done t)))
  end.

(** [fut.as_mut().unwrap().poll_unpin(cx)] (lines 125, 152, 172, 192).  A future that does not hold the lock yet gets it
    if it is free; [grant = false] stands for the fairness of the lock passing it over in favour of another waiter. *)
Definition poll_future (sl : slot) (grant : bool) (t : stream) : poll (value * list byte) * stream :=
  match t_slot t sl with
  | None => (Crash NoFuture, t)
  | Some Finished => (Crash Resumed, t)
  | Some (Running o b _) => advance sl o b t
  | Some (Waiting o b) =>
    match t_lock t with
    | None => if grant then advance sl o b (mkStream (t_st t) (t_lock t) (t_slot t) (t_begun t ++ [o]) (t_done t)) else (Pending, t)
    | Some _ => (Pending, t)
    end
  end.

(** What a call on the stream returns; a read also returns the new contents of the caller's buffer. *)
Inductive sval := SvRead (n : Z) (buf : list byte) | SvLen (n : Z) | SvUnit | SvAddr (a : addr).

(** Creates the future if the slot is empty (lines 112-121, 139-148, 162-168). *)
Definition ensure (sl : slot) (o : op) (b : list byte) (t : stream) : stream :=
  match t_slot t sl with None => set_slot sl (Some (Waiting o b)) t | Some _ => t end.

(** [poll_read], lines 107-130.  [recv_from] writes the bytes it returns to the front of the vector it was given. *)
Definition poll_read (buf : list byte) (grant : bool) (t : stream) : poll sval * stream :=
  match poll_future SlRead grant (ensure SlRead (ORecvFrom (length buf)) buf t) with
  | (Pending, t1) => (Pending, t1)
  | (Crash c, t1) => (Crash c, t1)
  | (Ready (Err k), t1) => (Ready (Err k), t1) (* `?`, line 125: the slot is not emptied *)
  | (Ready (Ok (v, vec)), t1) =>
    match v with
    | VData d _ =>
      let bytes := d ++ skipn (length d) vec in
      if Nat.eqb (length buf) (length bytes)
      then (Ready (Ok (SvRead (Z.of_nat (length d)) bytes)), set_slot SlRead None t1)
      else (Crash Lengths, t1)
    | _ => (Crash Lengths, t1) (* not a result of [recv_from] *)
    end
  end.

(** [poll_write], lines 134-156. *)
Definition poll_write (buf : list byte) (grant : bool) (t : stream) : poll sval * stream :=
  match poll_future SlWrite grant (ensure SlWrite (OSendTo buf) [] t) with
  | (Pending, t1) => (Pending, t1)
  | (Crash c, t1) => (Crash c, t1)
  | (Ready (Err k), t1) => (Ready (Err k), t1) (* `?`, line 152: the slot is not emptied *)
  | (Ready (Ok (v, _)), t1) =>
    match v with
    | VLen n => (Ready (Ok (SvLen n)), set_slot SlWrite None t1)
    | _ => (Crash Lengths, t1) (* not a result of [send_to] *)
    end
  end.

(** The common end of [poll_flush] and [poll_close] (lines 170-175, 190-195): the slot is emptied whatever the result. *)
Definition finish_unit (sl : slot) (grant : bool) (t : stream) : poll sval * stream :=
  match poll_future sl grant t with
  | (Pending, t1) => (Pending, t1)
  | (Crash c, t1) => (Crash c, t1)
  | (Ready (Err k), t1) => (Ready (Err k), set_slot sl None t1)
  | (Ready (Ok _), t1) => (Ready (Ok SvUnit), set_slot sl None t1)
  end.
(** [poll_flush], lines 158-176. *)
Definition poll_flush (grant : bool) (t : stream) : poll sval * stream :=
  finish_unit SlFlush grant (ensure SlFlush OFlush [] t).
(** [poll_close], lines 178-196.  Line 182 asks whether the slot's lock is taken, not whether the slot is empty: polls
    being atomic the lock is free, [try_read()] is [Some], and no future is ever created. *)
Definition poll_close (grant : bool) (t : stream) : poll sval * stream :=
  let slot_lock_taken := false in
  finish_unit SlClose grant (if slot_lock_taken then ensure SlClose OFlush [] t else t).
(** One poll of the future of the inherent [close], lines 86-88. *)
Definition poll_own_close (grant : bool) (t : stream) : poll sval * stream :=
  finish_unit SlOwnClose grant (ensure SlOwnClose OClose [] t).
(** The caller drops that future: if it was suspended in [UtpSocket::close], the socket keeps the state reached by the
    last poll ([RxCancel] in the model of the socket) and what arrived later is left for the next operation. *)
Definition cancel_at (n : nat) (s : st) : st :=
  mkSt (sk s) (sw_in (firstn n (w_in (wd s)) ++ RxCancel :: skipn n (w_in (wd s))) (wd s)).
Definition drop_own_close (t : stream) : stream :=
  match t_slot t SlOwnClose with
  | Some (Running o _ n) => set_slot SlOwnClose None (mkStream (snd (run_op o (cancel_at n (t_st t)))) None (t_slot t) (t_begun t) (t_done t ++ [(o, Fail Pend)]))
  | _ => set_slot SlOwnClose None t
  end.
(** [set_max_retransmission_retries], lines 101-103: never suspended once it has the lock. *)
Definition poll_set_retries (n : Z) (grant : bool) (t : stream) : poll sval * stream :=
  match t_lock t with
  | None =>
    if grant
    then (Ready (Ok SvUnit), mkStream (snd (run_op (OSetRetries n) (t_st t))) None (t_slot t) (t_begun t ++ [OSetRetries n]) (t_done t ++ [(OSetRetries n, Ret VUnit)]))
    else (Pending, t)
  | Some _ => (Pending, t)
  end.

(** [peer_addr] and [local_addr], lines 91-98.  [try_read] fails while a writer holds the lock. *)
Definition stream_peer_addr (t : stream) : poll sval :=
  match t_lock t with
  | Some _ => Crash Locked
  | None => match fst (peer_addr (t_st t)) with Ret a => Ready (Ok (SvAddr a)) | Fail (Throw k) => Ready (Err k) | Fail _ => Crash Locked end
  end.
(** The address of the UDP socket is whatever the operating system says. *)
Definition stream_local_addr (os : result addr kind) (t : stream) : poll sval :=
  match t_lock t with
  | Some _ => Crash Locked
  | None => match os with Ok a => Ready (Ok (SvAddr a)) | Err k => Ready (Err k) end
  end.

(** ** Schedules *)
Inductive action :=
| Arrive (evs : list rx) (* results of the UDP socket become available *)
| PollRead (buf : list byte) (grant : bool) | PollWrite (buf : list byte) (grant : bool) | PollFlush (grant : bool) | PollClose (grant : bool)
| PollOwnClose (grant : bool) | DropOwnClose | PollSetRetries (n : Z) (grant : bool)
| AskPeer | AskLocal (os : result addr kind).

Definition arrive (evs : list rx) (s : st) : st := mkSt (sk s) (sw_in (w_in (wd s) ++ evs) (wd s)).
Definition act (a : action) (t : stream) : poll sval * stream :=
  match a with
  | Arrive evs => (Ready (Ok SvUnit), mkStream (arrive evs (t_st t)) (t_lock t) (t_slot t) (t_begun t) (t_done t))
  | PollRead buf g => poll_read buf g t
  | PollWrite buf g => poll_write buf g t
  | PollFlush g => poll_flush g t
  | PollClose g => poll_close g t
  | PollOwnClose g => poll_own_close g t
  | DropOwnClose => (Ready (Ok SvUnit), drop_own_close t)
  | PollSetRetries n g => poll_set_retries n g t
  | AskPeer => (stream_peer_addr t, t)
  | AskLocal os => (stream_local_addr os t, t)
  end.
Fixpoint acts (l : list action) (t : stream) : list (poll sval) * stream :=
  match l with
  | [] => ([], t)
  | a :: rest => let (r, t1) := act a t in let (rs, t2) := acts rest t1 in (r :: rs, t2)
  end.

(** ** The stream of incoming connections, src/socket.rs:1280-1305 *)

(** [accept] (lines 1222-1260) first waits for one datagram; the model's [accept] is what it does with it and with the
    results of asking for the local address and of binding.  The queue holds what arrived and was not taken. *)
Record incoming := mkIncoming {
  i_st : st (* the world; its socket part is that of the connection accepted last *);
  i_queue : list (rx * result addr kind * result unit kind);
  i_fut : option bool (* field [accept]: a stored future, and whether it has completed by a panic *);
  i_begun : nat (* ghost: calls of [accept] *)
}.
Inductive item := Item (r : result addr kind) | NotYet | EndOfStream | Broke (c : crash).
(** [poll_next], lines 1287-1304: the loop body returns in its first round. *)
Definition poll_next (i : incoming) : item * incoming :=
  let i1 := match i_fut i with None => mkIncoming (i_st i) (i_queue i) (Some false) (S (i_begun i)) | Some _ => i end in
  match i_fut i1 with
  | Some true => (Broke Resumed, i1)
  | _ =>
    match i_queue i1 with
    | [] => (NotYet, i1)
    | (ev, la, bd) :: rest =>
      match accept ev la bd (i_st i1) with
      | (Ret a, s) => (Item (Ok a), mkIncoming s rest None (i_begun i1))
      | (Fail (Throw k), s) => (Item (Err k), mkIncoming s rest None (i_begun i1))
      | (Fail (Panic l), s) => (Broke (InSocket l), mkIncoming s rest (Some true) (i_begun i1))
      | (Fail _, _) => (NotYet, i1)
      end
    end
  end.
Inductive iact := IArrive (q : list (rx * result addr kind * result unit kind)) | IPoll.
Fixpoint iacts (l : list iact) (i : incoming) : list item * incoming :=
  match l with
  | [] => ([], i)
  | IArrive q :: rest => iacts rest (mkIncoming (i_st i) (i_queue i ++ q) (i_fut i) (i_begun i))
  | IPoll :: rest => let (r, i1) := poll_next i in let (rs, i2) := iacts rest i1 in (r :: rs, i2)
  end.
