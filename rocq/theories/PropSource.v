(** C116. *)
From Verif Require Import LostProofs Samples.
Require Import Lia.
Local Open Scope Z_scope.

Lemma dispatch_blind p ty src src' s : s_state (sk s) <> New -> s_state (sk s) <> SynSent -> dispatch recv p ty src s = dispatch recv p ty src' s.
Proof. intros H1 H2. unfold dispatch, bind, get_sk. destruct (s_state (sk s)); try congruence; destruct ty; reflexivity. Qed.
(** C116.  Outside the two states of an opening connection, what a packet does is the same from whatever address it comes: its connection id alone decides. *)
Theorem C116_every_refuted : forall p src src' s, s_state (sk s) <> New -> s_state (sk s) <> SynSent -> handle_packet recv p src s = handle_packet recv p src' s.
Proof.
  intros p src src' s H1 H2. destruct (get_type p) as [ty|] eqn:ET.
  - assert (HN : s_state (sk (noted p s)) = s_state (sk s)) by (unfold noted, acked_sk; cbn [sk]; destruct (_ =? _); reflexivity).
    assert (own_id (sk s) p \/ ~ own_id (sk s) p) as [HO|HO] by (unfold own_id; destruct (Z.eq_dec (connection_id p) (s_sender_connection_id (sk s))); destruct (Z.eq_dec (connection_id p) (s_receiver_connection_id (sk s))); tauto).
    + rewrite !(handle_own recv p _ ty s ET) by auto. apply dispatch_blind; rewrite HN; assumption.
    + destruct (ptype_eqb ty PSyn) eqn:EY.
      * assert (ty = PSyn) by (destruct ty; auto; discriminate). rewrite !(handle_own recv p _ ty s ET) by auto. apply dispatch_blind; rewrite HN; assumption.
      * assert (ty <> PSyn) by (intros ->; discriminate). rewrite !(handle_foreign recv p _ ty s ET) by auto. reflexivity.
  - unfold handle_packet, m_get_type, bind. destruct (ack_in_order p s) as [[]]; [|reflexivity]. rewrite ET. reflexivity.
Qed.
Print Assumptions C116_every_refuted.

(** Someone else, who has seen or guessed the connection id (16 bits). *)
Notation stranger := (V4 77).
Notation from_stranger t n d := (RxDgram (dgram t 101 n 499 d) stranger).
(** A stranger's data is delivered and acknowledged to the stranger, and the peer's own packet with that number is then refused as old; a stranger's FIN ends the stream, a stranger's Reset the connection. *)
Theorem C116_stranger_refuted : let victim evs := accepted true 500 10 evs in
  (forall evs, s_connected_to (sk (victim evs)) = peer) /\ peer <> stranger /\
  (let r := run_ops [ORecvFrom 10; ORecvFrom 10] (victim [from_stranger PData 11 [x45]; rx_pkt (dgram PData 101 11 499 [x41]); rx_pkt (dgram PData 101 12 499 [x42])]) in
    fst r = [Ret (VData [x45] stranger); Ret (VData [x42] peer)] /\ map fst (w_sent (wd (snd r))) = [peer; stranger; peer; peer]) /\
  fst (run_ops [ORecvFrom 10; OSendTo [x41]] (victim [from_stranger PFin 11 []])) = [Ret (VData [] peer); Fail (Throw KNotConnected)] /\
  fst (run_ops [ORecvFrom 10; ORecvFrom 10] (victim [from_stranger PReset 11 []; rx_pkt (dgram PData 101 11 499 [x41])])) = [Fail (Throw KConnectionReset); Fail (Throw KConnectionReset)].
Proof. cbv zeta. split; [reflexivity|]. split; [discriminate|]. vm_compute. auto. Qed.
Print Assumptions C116_stranger_refuted.
Example C116_example : s_state (sk (accepted true 500 10 [])) = Connected.
Proof. reflexivity. Qed.
