(** C114. *)
From Verif Require Import SendProofs Samples.
Require Import Lia.
Local Open Scope Z_scope.

(** A plain acknowledgement of number [a]: no selective-ack extension. *)
Definition plain (a : Z) (p : packet) : Prop := ack_nr p = a /\ exists exts, extensions p = Some exts /\ Forall (fun e => is_sack (ext_ty e) = false) exts.
(** One acknowledgement after the other. *)
Fixpoint hear (ps : list packet) : M unit := match ps with [] => ret tt | p :: rest => handle_state_packet recv p ;;; hear rest end.

Lemma deaf_step a p s : plain a p -> s_last_acked (sk s) = a -> ~ In a (map seq_nr (s_send_window (sk s))) -> s_send_window (sk s) = [] \/ 3 <= s_duplicate_ack_count (sk s) ->
  0 <= s_duplicate_ack_count (sk s) -> s_duplicate_ack_count (sk s) + 1 < 4294967296 ->
  handle_state_packet recv p s = (Ret tt, mkSt (ss_duplicate_ack_count (s_duplicate_ack_count (sk s) + 1) (sk s)) (wd s)).
Proof.
  intros (HA & exts & HE & HN) HL HI H3 H0 HB. destruct (SendProofs.position_none a _ HI) as (P1 & P2).
  assert (HC : ck_u32 1036 (s_duplicate_ack_count (sk s) + 1) s = (Ret (s_duplicate_ack_count (sk s) + 1), s)).
  { unfold ck_u32, arith. change (2 ^ 32 - 1) with 4294967295. replace (0 <=? s_duplicate_ack_count (sk s) + 1) with true by lia. replace (s_duplicate_ack_count (sk s) + 1 <=? 4294967295) with true by lia.
    rewrite andb_false_r. now rewrite u32_small by lia. }
  assert (HX : note_ack a s = (Ret tt, mkSt (ss_duplicate_ack_count (s_duplicate_ack_count (sk s) + 1) (sk s)) (wd s))).
  { unfold note_ack, bind at 1, get_sk. rewrite HL, Z.eqb_refl. unfold bind. now rewrite HC. }
  unfold handle_state_packet. rewrite HA. unfold bind at 1. rewrite HX. unfold bind at 1, get_sk at 1. cbn [sk]. change (s_send_window (ss_duplicate_ack_count ?d ?k)) with (s_send_window k). rewrite P1.
  unfold bind at 1, ret at 1. unfold bind at 1, get_sk at 1. cbn [sk]. change (s_send_window (ss_duplicate_ack_count ?d ?k)) with (s_send_window k). change (s_duplicate_ack_count (ss_duplicate_ack_count ?d ?k)) with d.
  assert (HF : negb (is_nil (s_send_window (sk s))) && (s_duplicate_ack_count (sk s) + 1 =? 3) = false).
  { destruct H3 as [->|H3]; [reflexivity|]. replace (_ =? 3) with false by lia. apply andb_false_r. }
  cbv zeta. rewrite HF, HE. cbn [unwrap]. unfold bind at 1, ret at 1. unfold bind at 1. rewrite no_sack_pass by exact HN.
  unfold finish_state_packet, bind at 1, get_sk at 1. cbn [sk]. change (s_send_window (ss_duplicate_ack_count ?d ?k)) with (s_send_window k). change (s_duplicate_ack_count (ss_duplicate_ack_count ?d ?k)) with d.
  rewrite HF. cbn [andb]. unfold bind at 1, ret at 1. unfold bind at 1, ret at 1. unfold advance_send_window, bind, get_sk. cbn [sk].
  change (s_send_window (ss_duplicate_ack_count ?d ?k)) with (s_send_window k). change (s_last_acked (ss_duplicate_ack_count ?d ?k)) with (s_last_acked k). rewrite HL, P2. reflexivity.
Qed.
Lemma deaf_run a ps : forall s, Forall (plain a) ps -> s_last_acked (sk s) = a -> ~ In a (map seq_nr (s_send_window (sk s))) -> s_send_window (sk s) = [] \/ 3 <= s_duplicate_ack_count (sk s) ->
  0 <= s_duplicate_ack_count (sk s) -> s_duplicate_ack_count (sk s) + Z.of_nat (length ps) < 4294967296 ->
  hear ps s = (Ret tt, mkSt (ss_duplicate_ack_count (s_duplicate_ack_count (sk s) + Z.of_nat (length ps)) (sk s)) (wd s)).
Proof.
  induction ps as [|p ps IH]; intros s HP HL HI H3 H0 HB.
  - cbn. rewrite Z.add_0_r. destruct s as [[] w]. reflexivity.
  - inversion HP as [|? ? HP1 HP2]; subst. cbn [length] in HB. cbn [hear]. unfold bind. rewrite (deaf_step _ p s HP1 eq_refl HI H3 H0) by lia.
    rewrite (IH (mkSt (ss_duplicate_ack_count (s_duplicate_ack_count (sk s) + 1) (sk s)) (wd s)) HP2 eq_refl HI).
    2: { destruct H3 as [H3|H3]; [left; exact H3|right; change (3 <= s_duplicate_ack_count (sk s) + 1); lia]. }
    2: { change (0 <= s_duplicate_ack_count (sk s) + 1). lia. }
    2: { change (s_duplicate_ack_count (sk s) + 1 + Z.of_nat (length ps) < 4294967296). lia. }
    cbn [length]. replace (s_duplicate_ack_count (sk s) + Z.of_nat (S (length ps))) with (s_duplicate_ack_count (sk s) + 1 + Z.of_nat (length ps)) by lia. reflexivity.
Qed.

(** C114.  The acknowledgements that arrive while nothing is in flight are counted as duplicates ... *)
Theorem C114_idle_refuted : forall a ps s, Forall (plain a) ps -> s_last_acked (sk s) = a -> s_send_window (sk s) = [] -> 0 <= s_duplicate_ack_count (sk s) ->
  s_duplicate_ack_count (sk s) + Z.of_nat (length ps) < 4294967296 ->
  hear ps s = (Ret tt, mkSt (ss_duplicate_ack_count (s_duplicate_ack_count (sk s) + Z.of_nat (length ps)) (sk s)) (wd s)).
Proof. intros a ps s H1 H2 H3 H4 H5. apply (deaf_run a); auto. rewrite H3. exact (fun x => x). Qed.
Print Assumptions C114_idle_refuted.
(** ... and with the count at three or more, no number of duplicates sent because of a loss retransmits anything or halves the window: only the counter changes. *)
Theorem C114_every_refuted : forall a ps s, Forall (plain a) ps -> s_last_acked (sk s) = a -> ~ In a (map seq_nr (s_send_window (sk s))) -> 3 <= s_duplicate_ack_count (sk s) ->
  s_duplicate_ack_count (sk s) + Z.of_nat (length ps) < 4294967296 ->
  hear ps s = (Ret tt, mkSt (ss_duplicate_ack_count (s_duplicate_ack_count (sk s) + Z.of_nat (length ps)) (sk s)) (wd s)).
Proof. intros a ps s H1 H2 H3 H4 H5. apply (deaf_run a); auto; lia. Qed.
Print Assumptions C114_every_refuted.

Notation ack n := (rx_pkt (dgram PState 101 11 n [])).
(** How often data packet [n] went out. *)
Definition times (n : Z) (s : st) : nat := length (filter (fun x => match get_type (snd x) with Some PData => seq_nr (snd x) =? n | _ => false end) (w_sent (wd s))).
(** A sender whose first packet is acknowledged, which then hears [k] requests of its waiting peer (three per timeout, C35), sends three packets of which the first is lost, and hears [n] duplicates. *)
Definition idle_ops : list op := [OSendTo [x41]; OFlush; ORecvFrom 10; OSendTo [x42]; OSendTo [x43]; OSendTo [x44]; OFlush].
Notation idle k n := (accepted true 500 10 (ack 500 :: repeat (ack 500) k ++ [rx_pkt (dgram PData 101 11 500 [x45])] ++ repeat (ack 500) n)).
Theorem C114_request_refuted : exists s, reachable s /\ s = snd (run_ops idle_ops (idle 3%nat 40%nat)) /\ w_in (wd s) = [] /\ s_duplicate_ack_count (sk s) = 44 /\ map seq_nr (s_send_window (sk s)) = [501; 502; 503] /\
  times 501 s = 1%nat /\ s_cwnd (sk s) = s_cwnd (sk (snd (run_ops idle_ops (idle 3%nat 0%nat)))).
Proof. exists (snd (run_ops idle_ops (idle 3%nat 40%nat))). split; [reach|]. split; [reflexivity|vm_compute; auto 20]. Qed.
Print Assumptions C114_request_refuted.
(** Without the requests, the second duplicate after the acknowledgement (the third of its number) retransmits packet 501. *)
Example C114_example : times 501 (snd (run_ops idle_ops (idle 0%nat 2%nat))) = 2%nat /\
  s_duplicate_ack_count (sk (snd (run_ops idle_ops (idle 3%nat 0%nat)))) = 4 /\ s_last_acked (sk (snd (run_ops idle_ops (idle 3%nat 0%nat)))) = 500.
Proof. vm_compute. auto. Qed.
