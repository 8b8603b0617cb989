(** Specification of C102: the example program examples/utpcat.rs, one copy run as server, one as client. *)
From Verif Require Export SpecTransfer.
Local Open Scope Z_scope.

(** utpcat.rs:86-97: what the client reads from its standard input it writes to the stream, piece after piece; the answers are not waited for ([poll_write] is [send_to]). *)
Fixpoint send_all (ds : list (list byte)) : M unit :=
  match ds with
  | [] => ret tt
  | d :: ds => send_to d ;;; send_all ds
  end.
(** utpcat.rs:71-101, the client: connect, write, close.  An error ends the program ([expect]). *)
Definition cat_client (a : addr) (l : list addr) (ds : list (list byte)) : M unit := connect (Ok (a :: l)) (Ok tt) ;;; send_all ds ;;; close.
(** utpcat.rs:48-53, the server: a stream bound to an address. *)
Definition cat_bind (a : addr) (l : list addr) : M unit := bind_socket (Ok (a :: l)) (Ok tt).
(** utpcat.rs:61-69: it reads with a buffer of [n] bytes and prints until a read gets nothing: [out] is what it prints in all. *)
Inductive prints (n : nat) : list byte -> st -> st -> Prop :=
| prints_end a s s' : run_op (ORecvFrom n) s = (Ret (VData [] a), s') -> prints n [] s s'
| prints_more d a out s s1 s' : run_op (ORecvFrom n) s = (Ret (VData d a), s1) -> d <> [] -> prints n out s1 s' -> prints n (d ++ out) s s'.
(** It printed [out] and the next read waits. *)
Inductive shows (n : nat) : list byte -> st -> st -> Prop :=
| shows_end s s' : run_op (ORecvFrom n) s = (Fail Pend, s') -> shows n [] s s'
| shows_more d a out s s1 s' : run_op (ORecvFrom n) s = (Ret (VData d a), s1) -> d <> [] -> shows n out s1 s' -> shows n (d ++ out) s s'.
(** How many packets the pieces take. *)
Definition all_packets (ds : list (list byte)) : Z := fold_right (fun d n => packets d + n) 0 ds.

(** A run of both: the client starts from [c0] and has address [ac], the server from [s0] and has [asv].  The client sends [there], the server [back], each one answer to one packet.
    - With all of [back] the client ends well, having sent exactly [there]; with all of [there] the server prints what the client read, in order, and ends, having sent exactly [back].
    - No packet waits for an answer to a later one, nor an answer for a later packet: with the first [i] of [back] the client sends more than [i] packets, the first ones of [there];
      with the first [j] of [there] the server prints a beginning of the data, sends exactly the first [j] of [back], and waits. *)
Definition cat_runs (ac asv : addr) (l l' : list addr) (ds : list (list byte)) (n : nat) (c0 s0 : st) : Prop := exists there back c b s, length there = length back /\
  cat_client asv l ds (arrive asv back c0) = (Ret tt, c) /\ sent_to asv there c0 c /\ s_state (sk c) = Closed /\
  cat_bind asv l' (arrive ac there s0) = (Ret tt, b) /\ prints n (concat ds) b s /\ sent_to ac back s0 s /\ s_state (sk s) = Closed /\
  (forall i, (i < length back)%nat -> exists k, (i < k)%nat /\ sent_to asv (firstn k there) c0 (snd (cat_client asv l ds (arrive asv (firstn i back) c0)))) /\
  (forall j, (j < length there)%nat -> exists b out more s, cat_bind asv l' (arrive ac (firstn j there) s0) = (Ret tt, b) /\ shows n out b s /\ out ++ more = concat ds /\ sent_to ac (firstn j back) s0 s).
