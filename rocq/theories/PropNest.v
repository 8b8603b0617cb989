(** C117. *)
From Verif Require Import NestProofs FixedProofs UtilProofs DelayProofs Samples.
Require Import Lia.
Local Open Scope Z_scope.

(** C117.  With a full window and [k] selective acknowledgements waiting that each ask for a packet in flight, a receive nests exactly [k + 1] deep (the first argument of [recv_fuel] is the depth allowed):
    at any smaller depth it is cut off, at that depth all are taken and the innermost receive waits. *)
Lemma nest_all W sid rid chk evs : Forall (report W sid rid chk) evs -> forall n s, stuffed W sid rid chk (length evs) s -> w_in (wd s) = evs ->
  (forall f, (f <= length evs)%nat -> fst (recv_fuel f n s) = Fail NoFuel) /\ fst (recv_fuel (S (length evs)) n s) = Fail Pend.
Proof.
  induction evs as [|e evs IH]; intros HF n s HS HI.
  - split; [intros f Hf; assert (f = O) as -> by (cbn in Hf; lia); reflexivity|].
    pose proof (recv_waits n s HI ltac:(apply HS)) as H. unfold recv, bind, event_fuel in H. rewrite HI in H. now rewrite H.
  - inversion HF as [|? ? H1 H2]; subst. cbn [length] in *. split.
    + intros f Hf. destruct f as [|f]; [reflexivity|]. destruct (nest_step W sid rid chk f n (length evs) e evs s HS HI H1) as (s1 & S1 & I1 & K).
      destruct (IH H2 BUF_SIZE s1 S1 I1) as (A & _). specialize (A f ltac:(lia)). destruct (recv_fuel f BUF_SIZE s1) as [o s2] eqn:E. cbn [fst] in A. subst o. now rewrite (K NoFuel s2 (or_intror eq_refl) eq_refl).
    + destruct (nest_step W sid rid chk (S (length evs)) n (length evs) e evs s HS HI H1) as (s1 & S1 & I1 & K).
      destruct (IH H2 BUF_SIZE s1 S1 I1) as (_ & A). destruct (recv_fuel (S (length evs)) BUF_SIZE s1) as [o s2] eqn:E. cbn [fst] in A. subst o. now rewrite (K Pend s2 (or_introl eq_refl) eq_refl).
Qed.
Theorem C117_every_refuted : forall W sid rid chk evs n s, Forall (report W sid rid chk) evs -> stuffed W sid rid chk (length evs) s -> w_in (wd s) = evs ->
  (forall f, (f <= length evs)%nat -> fst (recv_fuel f n s) = Fail NoFuel) /\ fst (recv_fuel (S (length evs)) n s) = Fail Pend.
Proof. intros W sid rid chk evs n s HF. exact (nest_all W sid rid chk evs HF n s). Qed.
Print Assumptions C117_every_refuted.

(** A server that sent 2800 bytes, and a peer that says, as often as it likes, that the first packet is missing. *)
Definition missing : rx := rx_pkt (wire (mkHdr PState 101 77 0 1048576 11 499) [(x01, [x07; x00; x00; x00])] []).
Definition full : st := snd (run_ops [OSendTo (repeat x41 2800)] (accepted true 500 10 [])).
Lemma full_ops ops : forall s, w_clock (wd (snd (run_ops ops s))) = w_clock (wd s).
Proof.
  induction ops as [|o ops IH]; intros s; cbn [run_ops]; [reflexivity|]. pose proof (envfix_run_op o s) as [HE _]. destruct (run_op o s) as [r s1]. cbn [snd] in HE. rewrite <- HE.
  destruct r as [v|[k|l| |]]; try exact HE; try (rewrite <- (IH s1); destruct (run_ops ops s1); reflexivity). reflexivity.
Qed.
Lemma full_clock : w_clock (wd full) = fun n => 1600000000000000 + 1000 * Z.of_nat n.
Proof.
  unfold full. rewrite full_ops. unfold accepted. cbv zeta. change (w_clock (wd (mkSt ?a (sw_in ?e ?w)))) with (w_clock w).
  destruct (accept _ _ _ _) as [o s] eqn:E. cbn [snd]. assert (HO : o = Ret peer) by (change o with (fst (o, s)); rewrite <- E; vm_compute; reflexivity). subst o.
  rewrite (accept_clock _ _ _ _ _ _ E). reflexivity.
Qed.
Lemma missing_report : report (s_send_window (sk full)) 100 101 true missing.
Proof.
  assert (HW : map seq_nr (s_send_window (sk full)) = [500; 501]) by (vm_compute; reflexivity). unfold report. rewrite HW.
  set (d := wire (mkHdr PState 101 77 0 1048576 11 499) [(x01, [x07; x00; x00; x00])] []).
  exists d, (mkExt ESack [x07; x00; x00; x00]), []. split; [vm_compute; reflexivity|]. split; [vm_compute; reflexivity|]. split; [right; vm_compute; reflexivity|]. split; [vm_compute; reflexivity|].
  split; [reflexivity|]. split; [vm_compute; discriminate|]. assert (HA : ack_nr d = 499) by (vm_compute; reflexivity). rewrite HA. split; [cbn; lia|]. split; [left; reflexivity|intros _; lia].
Qed.
Lemma input_clock t evs : w_clock (wd (mkSt (sk t) (sw_in evs (wd t)))) = w_clock (wd t). Proof. reflexivity. Qed.
Lemma input_chk t evs : w_chk (wd (mkSt (sk t) (sw_in evs (wd t)))) = w_chk (wd t). Proof. reflexivity. Qed.
Lemma input_sk t evs : sk (mkSt (sk t) (sw_in evs (wd t))) = sk t. Proof. reflexivity. Qed.
Lemma full_stuffed k evs : Z.of_nat k < 4294967296 -> stuffed (s_send_window (sk full)) 100 101 true k (mkSt (sk full) (sw_in evs (wd full))).
Proof.
  intros HK. unfold stuffed. rewrite input_clock, full_clock, input_chk, input_sk.
  assert (HD : s_duplicate_ack_count (sk full) = 0) by (vm_compute; reflexivity). rewrite HD.
  do 3 (split; [vm_compute; reflexivity|]). split; [reflexivity|]. do 2 (split; [vm_compute; discriminate|]). do 2 (split; [vm_compute; reflexivity|]). split; [lia|]. split; [lia|].
  intros i. rewrite !micros_spec. change (2 ^ 32) with 4294967296. rewrite !Z.abs_eq by lia. pose proof (Z.div_mod (1600000000000000 + 1000 * Z.of_nat i) 4294967296 ltac:(lia)). pose proof (Z.div_mod (1600000000000000 + 1000 * Z.of_nat (S i)) 4294967296 ltac:(lia)).
  pose proof (Z.mod_pos_bound (1600000000000000 + 1000 * Z.of_nat i) 4294967296 ltac:(lia)). pose proof (Z.mod_pos_bound (1600000000000000 + 1000 * Z.of_nat (S i)) 4294967296 ltac:(lia)). lia.
Qed.
(** No bound on the nesting holds: whatever the number of such datagrams, a receive nests deeper than that. *)
Theorem C117_refuted : forall k n, Z.of_nat k < 4294967296 -> exists s, reachable s /\ length (w_in (wd s)) = k /\ (forall f, (f <= k)%nat -> fst (recv_fuel f n s) = Fail NoFuel) /\ fst (recv_fuel (S k) n s) = Fail Pend.
Proof.
  intros k n HK. exists (mkSt (sk full) (sw_in (repeat missing k) (wd full))). split; [apply rc_input; unfold full; reach|]. split; [apply repeat_length|].
  pose proof (C117_every_refuted (s_send_window (sk full)) 100 101 true (repeat missing k) n (mkSt (sk full) (sw_in (repeat missing k) (wd full)))) as H. rewrite repeat_length in H. apply H; [|now apply full_stuffed|reflexivity].
  apply Forall_forall. intros e He. rewrite (repeat_spec _ _ _ He). exact missing_report.
Qed.
Print Assumptions C117_refuted.
(** Five of them, as the caller sees it: the read takes all five and waits. *)
Example C117_example : let s := mkSt (sk full) (sw_in (repeat missing 5) (wd full)) in
  fst (recv_fuel 5 100 s) = Fail NoFuel /\ fst (recv_fuel 6 100 s) = Fail Pend /\ fst (run_op (ORecvFrom 100) s) = Fail Pend /\ w_in (wd (snd (run_op (ORecvFrom 100) s))) = [].
Proof. vm_compute. auto. Qed.
