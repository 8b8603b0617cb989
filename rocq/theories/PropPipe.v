(** C101: what is written to a stream at one end is read from the stream at the other. *)
From Verif Require Import PipeProofs Samples PropBulk.
Require Import Lia.
Local Open Scope Z_scope.

(** C101.  Streams over any two ends of a connection with nothing under way, a message of any length that leaves the sender at most 32768 numbers ahead (as in C86): whatever the pattern of polls and
    arrivals at both ends, the write returns the length, the reads return the bytes in order, each as soon as its packet is there, and the flush succeeds; the ends are then fit for the next message. *)
Theorem C101_piped : forall ax ay d buf x y, joined ax ay x y -> listens x y -> lead x + packets d <= 32769 -> (1380 <= length buf)%nat ->
  exists x' y', piped ax ay d buf x y x' y' /\ joined ax ay x' y' /\ listens x' y' /\ (listens y x -> listens y' x') /\ lead x' <= lead x /\ lead y' = lead y.
Proof. exact pipe_runs. Qed.
Print Assumptions C101_piped.

(** Such ends: right after a handshake. *)
Example C101_example : forall ac al asv c0 s0 d buf, untouched c0 -> untouched s0 -> packets d <= 32768 -> (1380 <= length buf)%nat ->
  exists c s, handshake ac al asv c0 s0 c s /\ exists c' s', piped ac asv d buf c s c' s'.
Proof.
  intros ac al asv c0 s0 d buf HC HS HP Hn. destruct (handshake_leads ac al asv c0 s0 HC HS) as (c & s & H1 & H2 & H3 & _ & L1 & _). exists c, s. split; [exact H1|].
  destruct (C101_piped ac asv d buf c s H2 H3) as (c' & s' & H & _); [lia|exact Hn|]. eauto.
Qed.
(** In numbers: 3000 bytes in three packets, with refused and early polls at both ends.  (-1: [Pending]; -2: a datagram arrives or the flush succeeds.) *)
Definition outcomes (rs : list (poll sval)) : list Z := map (fun r => match r with Ready (Ok (SvRead n _)) | Ready (Ok (SvLen n)) => n | Ready (Ok SvUnit) => -2 | Pending => -1 | _ => -3 end) rs.
Example C101_run : let (c, s) := meet 500 in let d := repeat x41 3000 in let buf := repeat x00 1400 in
  let qs := answers 3 local peer d 1400 c s in let ps := carried c (snd (run_op (OSendTo d) (arrive peer qs c))) in
  let '(rs, t) := acts [PollRead buf true; Arrive (coming local (firstn 1 ps)); PollRead buf false; PollRead buf true; PollRead buf false; PollRead buf true; Arrive (coming local (skipn 1 ps)); PollRead buf true; PollRead buf true; PollRead buf true] (stream_new s) in
  let '(rs', t') := acts [PollWrite d false; PollWrite d true; PollWrite d true; Arrive (coming peer (firstn 1 qs)); PollWrite d true; Arrive (coming peer (skipn 1 qs)); PollFlush true] (stream_new c) in
  (length ps, carried s (t_st t), carried c (t_st t')) = (3%nat, qs, ps) /\ outcomes rs = [-1; -2; 1380; -1; -1; -1; -2; 1380; 240; -1] /\ outcomes rs' = [-1; -1; -1; -2; 3000; -2; -2].
Proof. vm_compute. auto. Qed.
