(** C54, C55. *)
From Verif Require Import NoPanicProofs Samples.
Require Import Lia.
Local Open Scope Z_scope.

(** C54.  [w_chk (wd s) = false]: the build has no overflow checks.  Whatever the socket went through - [reachable] -
    and whatever the script still holds, no call panics. *)
Theorem C54_calls : forall s o l, reachable s -> w_chk (wd s) = false -> fst (run_op o s) <> Fail (Panic l).
Proof.
  intros s o l HR HC E. pose proof (safe_run_op o s (reachable_ok s HR)) as (_ & _ & HP). destruct (HP l E). congruence.
Qed.
Print Assumptions C54_calls.
Theorem C54_histories : forall ops s, reachable s -> w_chk (wd s) = false ->
  Forall (fun o => forall l, o <> Fail (Panic l)) (fst (run_ops ops s)) /\ length (fst (run_ops ops s)) = length ops.
Proof.
  intros ops s HR. apply reachable_ok in HR. revert s HR. induction ops as [|o ops IH]; intros s HR HC; [split; [constructor|reflexivity]|]. cbn [run_ops].
  pose proof (safe_run_op o s HR) as (C & R & HP). destruct (run_op o s) as [r s'] eqn:E. cbn [fst snd] in C, R, HP.
  assert (HN : forall l, r <> Fail (Panic l)) by (intros l ->; destruct (HP l eq_refl); congruence).
  assert (HC' : w_chk (wd s') = false) by congruence. destruct (IH s' R HC') as [H1 H2]. destruct (run_ops ops s') as [rs s'']. cbn [fst] in H1, H2.
  assert (HG : Forall (fun o => forall l, o <> Fail (Panic l)) (r :: rs) /\ length (r :: rs) = S (length ops)) by (split; [now constructor|cbn; now rewrite H2]).
  destruct r as [v|[k|l| |]]; try exact HG. now destruct (HN l).
Qed.
Print Assumptions C54_histories.
(** Opening a connection and dropping a socket, from any state *)
Theorem C54_opening : forall other bound ev local b r s l, w_chk (wd s) = false ->
  fst (connect other bound s) <> Fail (Panic l) /\ fst (accept ev local b s) <> Fail (Panic l) /\ fst (bind_socket r b s) <> Fail (Panic l).
Proof.
  intros other bound ev local b r s l HC. repeat split; intros E;
  [destruct (connect_born other bound s) as (_ & _ & HP)|destruct (accept_born ev local b s) as (_ & _ & HP)|destruct (bind_born r b s) as (_ & _ & HP)]; destruct (HP l E); congruence.
Qed.
Print Assumptions C54_opening.
Theorem C54_drop : forall s l, reachable s -> w_chk (wd s) = false -> fst (drop_socket s) <> Fail (Panic l).
Proof.
  intros s l HR HC E. pose proof (safe_ignore _ safe_close s (reachable_ok s HR)) as (_ & _ & HP). destruct (HP l E). congruence.
Qed.
Print Assumptions C54_drop.
(** Datagrams that panic a debug build, in a release build: a selective ack of number 65535, then data around 65535. *)
Definition sack_dgram (cid sq ak : Z) (bits : list byte) : packet := wire (mkHdr PState cid 77 0 1048576 sq ak) [(x01, bits)] [].
Notation c54_script := [rx_pkt (sack_dgram 101 65534 65535 [xff; x00; x00; x00]); rx_pkt (dgram PData 101 65535 500 [x41]); rx_pkt (dgram PData 101 1 500 [x42]); rx_pkt (dgram PData 101 0 500 [x43])].
Example C54_example : reachable (accepted false 500 65534 c54_script) /\
  fst (run_ops [OSendTo [x41]; ORecvFrom 10; ORecvFrom 10; ORecvFrom 10] (accepted false 500 65534 c54_script)) =
    [Ret (VLen 1); Ret (VData [x41] peer); Ret (VData [x43] peer); Ret (VData [x42] peer)].
Proof. split; [apply accepted_reachable; vm_compute; reflexivity|vm_compute; reflexivity]. Qed.

(** C55 is false: datagrams make a debug build panic in at least six places. *)
Notation hit s o l := (reachable s /\ w_chk (wd s) = true /\ fst (run_op o s) = Fail (Panic l)).
Theorem C55_accept_refuted : exists s data, w_chk (wd s) = true /\
  fst (accept (RxDgram data peer) (Ok local) (Ok tt) s) = Fail (Panic 888). (* connection_id() + 1 *)
Proof. exists (mkSt blank (sample_world true 500 [])), (dgram PSyn 65535 7 0 []). split; vm_compute; reflexivity. Qed.
Print Assumptions C55_accept_refuted.
Notation c55_inflight evs := (mkSt (sk (snd (run_ops [OSendTo [x41]; OSendTo [x42]] (accepted true 500 10 [])))) (sw_in evs (wd (snd (run_ops [OSendTo [x41]; OSendTo [x42]] (accepted true 500 10 [])))))).
Notation c55_unread evs := (mkSt (sk (snd (run_ops [OSendTo [x41]; ORecvFrom 1] (accepted true 500 65534 [rx_pkt (dgram PData 101 65535 499 [x41; x42])]))))
  (sw_in evs (wd (snd (run_ops [OSendTo [x41]; ORecvFrom 1] (accepted true 500 65534 [rx_pkt (dgram PData 101 65535 499 [x41; x42])])))))).
Theorem C55_datagrams_refuted :
  (exists s o, hit s o 1084) (* selective ack with three bits set and acknowledgement number 65535 *) /\
  (exists s o, hit s o 1093) (* selective ack, acknowledgement number 65534 or 65535 *) /\
  (exists s o, hit s o 1116) (* three acknowledgements of 65535 *) /\
  (exists s o, hit s o 574) (* data past a gap after data with number 65535 *) /\
  (exists s o, hit s o 769) (* the same with data not read completely *).
Proof.
  split; [exists (accepted true 500 10 [rx_pkt (sack_dgram 101 11 65535 [x07; x00; x00; x00])]), (ORecvFrom 10)|].
  { split; [apply accepted_reachable; vm_compute; reflexivity|]. split; vm_compute; reflexivity. }
  split; [exists (c55_inflight [rx_pkt (sack_dgram 101 11 65534 [x01; x00; x00; x00])]), OFlush|].
  { split; [apply rc_input; reach|]. split; vm_compute; reflexivity. }
  split; [exists (c55_inflight [rx_pkt (dgram PState 101 11 65535 []); rx_pkt (dgram PState 101 11 65535 []); rx_pkt (dgram PState 101 11 65535 [])]), OFlush|].
  { split; [apply rc_input; reach|]. split; vm_compute; reflexivity. }
  split; [exists (accepted true 500 65534 [rx_pkt (dgram PData 101 65535 499 []); rx_pkt (dgram PData 101 1 499 [x42])]), (ORecvFrom 10)|].
  { split; [apply accepted_reachable; vm_compute; reflexivity|]. split; vm_compute; reflexivity. }
  exists (c55_unread [rx_pkt (dgram PData 101 5 499 [x43])]), OFlush. split; [apply rc_input; reach|]. split; vm_compute; reflexivity.
Qed.
Print Assumptions C55_datagrams_refuted.
(** So does a peer that stays silent, once the number of retries has been raised: every timeout doubles the congestion timeout, an unsigned 64-bit number. *)
Theorem C55_silence_refuted : exists s o, hit s o 459.
Proof.
  exists (snd (run_ops [OSetRetries 100] (accepted true 500 10 (repeat timeout 60)))), (ORecvFrom 10).
  split; [reach|]. split; vm_compute; reflexivity.
Qed.
Print Assumptions C55_silence_refuted.
(** What does hold: nothing but one of these checked arithmetic operations can panic, in any build; in particular no subtraction of delays (time.rs:76), no
    parsing, indexing, unwrapping or underflow of the count of bytes in flight does. *)
Theorem C55_only_overflow_partial : forall s o l, reachable s -> fst (run_op o s) = Fail (Panic l) -> w_chk (wd s) = true /\
  In l [459; 574; 641; 769; 888; 899; 1025; 1036; 1084; 1093; 1116].
Proof. intros s o l HR E. pose proof (safe_run_op o s (reachable_ok s HR)) as (_ & _ & HP). exact (HP l E). Qed.
Print Assumptions C55_only_overflow_partial.
(** Connecting never panics, whatever answers. *)
Theorem C55_connect_partial : forall a l s line, fst (connect (Ok (a :: l)) (Ok tt) s) <> Fail (Panic line).
Proof. intros a l s line H. destruct (connect (Ok (a :: l)) (Ok tt) s) as [o s'] eqn:E. cbn in H. subst o. apply connect_all in E as (cid & syns & _ & _ & _ & _ & HF). exact HF. Qed.
Print Assumptions C55_connect_partial.
(** C32.  With overflow checks the count of bytes in flight is the exact total, not only modulo 2^32. *)
Theorem C32_debug_exact : forall s, reachable s -> w_chk (wd s) = true ->
  s_curr_window (sk s) = fold_right (fun p n => Z.of_nat (length p) + n) 0 (s_send_window (sk s)).
Proof.
  intros s HR HC. pose proof (reachable_ok s HR) as (_ & _ & _ & _ & H). destruct (H HC) as [-> _]. clear H HC.
  assert (HS : Forall W0 (s_send_window (sk s))) by apply (reachable_wins s HR).
  induction (s_send_window (sk s)) as [|p w IH]; [reflexivity|]. cbn [total fold_right]. fold (total w). pose proof (Forall_inv HS) as (h & pl & -> & _ & HL). rewrite IH by now apply Forall_inv_tail in HS.
  unfold packet_len, zlen. rewrite u32_small; [reflexivity|]. unfold wire. cbn [first_type wire_exts app]. rewrite app_length, wire_header_length. unfold CHUNK in HL. cbn. lia.
Qed.
Print Assumptions C32_debug_exact.
