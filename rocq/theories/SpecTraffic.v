(** Specification of C91: what arrives and what is sent in answer. *)
From Verif Require Export Socket.
Local Open Scope Z_scope.

Definition datagrams (evs : list rx) : nat := length (filter (fun e => match e with RxDgram _ _ => true | _ => false end) evs).
Definition timeouts (evs : list rx) : nat := length (filter (fun e => match e with RxErr k => is_timeout k | _ => false end) evs).
Definition closes (ops : list op) : nat := length (filter (fun o => match o with OClose => true | _ => false end) ops).
(** Between [s] and [s'] the script was used up to some point, and [used] is what was consumed. *)
Definition consumed (used : list rx) (s s' : st) : Prop := w_in (wd s) = used ++ w_in (wd s').
Definition sent_count (s : st) : nat := length (w_sent (wd s)).
