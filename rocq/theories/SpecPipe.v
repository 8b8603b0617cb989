(** Specification of C101: what is written to a stream at one end is read from the stream at the other. *)
From Verif Require Export Stream SpecTransfer.
Local Open Scope Z_scope.

(** The datagrams [ps], coming from address [a]. *)
Definition coming (a : addr) (ps : list packet) : list rx := map (fun p => RxDgram p a) ps.
(** What arrives in the course of a schedule. *)
Definition arriving (l : list action) : list rx := flat_map (fun a => match a with Arrive evs => evs | _ => [] end) l.
(** Schedules in which one caller polls a write of [d] (a read into [buf]), as often as it likes, while datagrams arrive. *)
Definition writing (d : list byte) (l : list action) : Prop := Forall (fun a => match a with PollWrite b _ => b = d | Arrive _ => True | _ => False end) l.
Definition reading (buf : list byte) (l : list action) : Prop := Forall (fun a => match a with PollRead b _ => b = buf | Arrive _ => True | _ => False end) l.
(** Results of the polls that are not [Pending]. *)
Definition concluded (rs : list (poll sval)) : list (poll sval) := filter (fun r => match r with Pending | Ready (Ok SvUnit) => false | _ => true end) rs.
(** A read that returns [c]: its bytes are at the front of the buffer, the rest is as it was. *)
Definition got_piece (buf c : list byte) : poll sval := Ready (Ok (SvRead (Z.of_nat (length c)) (c ++ skipn (length c) buf))).

(** The message [d] passes from a stream over [x], at [ax], to a stream over [y], at [ay].  [ps] are the packets, [cs] their contents, [qs] the answers;
    no packet waits for the answer to a later one, as in [delivery].
    However the write is polled while the answers come in, the first result is the length of [d], and it is there when all answers are.  When the rest of them has arrived a flush succeeds; by then
    exactly [ps] were sent.
    However reads are polled while the first [j] packets come in, their results are pieces [cs], in order, none after the [j]th, and no read waits while one is to be had. *)
Definition piped (ax ay : addr) (d buf : list byte) (x y x' y' : st) : Prop := exists ps cs qs, concat cs = d /\ length cs = length ps /\ length qs = length ps /\
  (forall i, (i < length ps)%nat -> exists k, (i < k)%nat /\ sent_to ay (firstn k ps) x (snd (run_op (OSendTo d) (arrive ay (firstn i qs) x)))) /\
  (forall l later rs t g r t', writing d l -> arriving l ++ later = coming ay qs -> acts l (stream_new x) = (rs, t) -> concluded rs = [] -> poll_write d g t = (r, t') ->
     (r = Pending -> g = true -> later <> []) /\
     (r <> Pending -> r = Ready (Ok (SvLen (Z.of_nat (length d)))) /\ exists t'', acts [Arrive later; PollFlush true] t' = ([Ready (Ok SvUnit); Ready (Ok SvUnit)], t'') /\ t_st t'' = x' /\ sent_to ay ps x x')) /\
  (forall l j rs t, reading buf l -> (j <= length ps)%nat -> arriving l = coming ax (firstn j ps) -> acts l (stream_new y) = (rs, t) -> exists k, (k <= j)%nat /\ concluded rs = map (got_piece buf) (firstn k cs) /\
     ((k < j)%nat -> fst (poll_read buf true t) = got_piece buf (nth k cs [])) /\ (k = length ps -> t_st t = y' /\ sent_to ax qs y y')).
