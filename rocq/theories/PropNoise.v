(** C119. *)
From Verif Require Import SendProofs TermProofs RecvProofs Samples.
Require Import Lia.
Local Open Scope Z_scope.

(** A datagram that is no packet, from anywhere. *)
Definition noise (e : rx) : Prop := match e with RxDgram d _ => forall p, packet_try_from (firstn 1520 d) <> Some (Ok p) | _ => False end.
Lemma noise_recv n e rest s : w_in (wd s) = e :: rest -> noise e -> 0 < s_max_retries (sk s) -> recv n s = (Ret ([], s_connected_to (sk s)), rx_state s).
Proof.
  intros HI HN HM. destruct e as [d src| |]; [|destruct HN|destruct HN]. rewrite (recv_first n d src rest s HI HM). change (BUF_SIZE + HEADER_SIZE)%nat with 1520%nat. rewrite process_junk by exact HN. reflexivity.
Qed.
Lemma noise_flush evs : Forall noise evs -> forall s, w_in (wd s) = evs -> s_send_window (sk s) <> [] -> 0 < s_max_retries (sk s) -> flush s = (Fail Pend, mkSt (sk s) (sw_in [] (wd s))).
Proof.
  intros HF. induction HF as [|e evs H1 HF IH]; intros s HI HW HM; rewrite flush_eq, HI.
  - cbn [length loop]. unfold flush_body, bind, get_sk. destruct (s_send_window (sk s)) eqn:E; [congruence|]. cbn [is_nil]. rewrite recv_waits by assumption. destruct s as [k w]. cbn in *. destruct w. cbn in HI. subst. reflexivity.
  - cbn [length]. erewrite loop_step with (s' := rx_state s) (y := tt).
    2:{ unfold flush_body, bind, get_sk. destruct (s_send_window (sk s)) eqn:E; [congruence|]. cbn [is_nil]. rewrite (noise_recv BUF_SIZE e evs s HI H1 HM). reflexivity. }
    assert (HR : w_in (wd (rx_state s)) = evs) by (unfold rx_state; cbn; now rewrite HI). specialize (IH (rx_state s) HR HW HM). rewrite flush_eq, HR in IH. rewrite IH. reflexivity.
Qed.
(** C119.  A flush that hears nothing but such datagrams, each within the timeout of the receive that takes it, retransmits nothing and counts nothing towards giving up, however many there are and whatever the clock says meanwhile: the socket is unchanged and the flush still waits. *)
Theorem C119_every_refuted : forall evs s, Forall noise evs -> w_in (wd s) = evs -> s_send_window (sk s) <> [] -> 0 < s_max_retries (sk s) ->
  exists s', run_op OFlush s = (Fail Pend, s') /\ sk s' = sk s /\ w_sent (wd s') = w_sent (wd s) /\ w_in (wd s') = [].
Proof.
  intros evs s HF HI HW HM. exists (mkSt (sk s) (sw_in [] (wd s))). cbn [run_op]. unfold bind. rewrite (noise_flush evs HF s HI HW HM). repeat split.
Qed.
Print Assumptions C119_every_refuted.
(** And the timeouts of a peer that is gone are counted anew after each: forty timeouts do not end the flush, where five in a row do. *)
Definition junk : rx := RxDgram [x00; x01; x02] (V4 77).
Definition noisy : list rx := concat (repeat (repeat timeout 4 ++ [junk]) 10).
Theorem C119_refuted : exists s s', reachable s /\ w_in (wd s) = noisy /\ map seq_nr (s_send_window (sk s)) = [500] /\ s_max_retries (sk s) = 5 /\ noise junk /\
  run_op OFlush s = (Fail Pend, s') /\ s_state (sk s') = Connected /\ map seq_nr (s_send_window (sk s')) = [500] /\
  fst (run_ops [OFlush] (mkSt (sk s) (sw_in (repeat timeout 5) (wd s)))) = [Fail (Throw KTimedOut)].
Proof.
  set (s := snd (run_ops [OSendTo [x41]] (accepted true 500 10 noisy))). exists s, (snd (run_op OFlush s)). split; [unfold s; reach|]. do 3 (split; [vm_compute; reflexivity|]).
  split; [intros p; vm_compute; discriminate|]. split; [rewrite (surjective_pairing (run_op OFlush s)) at 1; f_equal; vm_compute; reflexivity|]. vm_compute. auto.
Qed.
Print Assumptions C119_refuted.
Example C119_example : noise junk /\ s_send_window (sk (snd (run_ops [OSendTo [x41]] (accepted true 500 10 (repeat junk 30))))) <> [].
Proof. split; [intros p; vm_compute; discriminate|vm_compute; discriminate]. Qed.
