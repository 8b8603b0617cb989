(** An older copy that reaches a reader which has handed out everything stalls it for good (C21). *)
From Verif Require Import LossProofs SpecCancel TransferProofs.
From Verif Require Export StallProofs.
Require Import ZifyBool ZifyNat ZifyN.
Local Open Scope Z_scope.
Ltac Zify.zify_post_hook ::= Z.div_mod_to_equations.

Definition no_zero (evs : list rx) : Prop := forall d src p, In (RxDgram d src) evs -> packet_try_from (firstn 1520 d) = Some (Ok p) -> seq_nr p <> 0.
Lemma no_zero_heard evs : no_zero evs -> forall p src, StallProofs.heard evs p src -> seq_nr p <> 0.
Proof. intros H p src (d & H1 & H2). eapply H; eassumption. Qed.
Lemma reachable_opre s : reachable s -> opre (StallProofs.Ge (w_in (wd s))) W0 s.
Proof.
  intros HR. destruct (reachable_wins s HR) as [H1 H2]. split; [split; [|exact H1]|exact H2]. intros b a p HIn HPk. split; [exact (parsed_valid _ _ HPk)|]. exists b. auto.
Qed.
Lemma stalled_for_good ops s d src : reachable s -> stall (sk s) -> no_zero (w_in (wd s)) -> In (Ret (VData d src)) (fst (run_ops ops s)) -> d = [].
Proof.
  intros HR HS HZ HI. destruct d as [|b d]; [reflexivity|]. exfalso. eapply (StallProofs.run_ops_yields (w_in (wd s)) (no_zero_heard _ HZ)); [|exact HI|discriminate].
  split; [now apply reachable_opre|exact HS].
Qed.
Lemma old_copy n b src q rest s : reachable s -> caught_up (s_ack_nr (sk s)) (sk s) -> all_sent s -> w_in (wd s) = RxDgram b src :: rest ->
  packet_try_from (firstn 1520 b) = Some (Ok q) -> get_type q = Some PData -> own_id (sk s) q -> 1 <= seq_nr q < s_ack_nr (sk s) -> s_ack_nr (sk s) < 65535 ->
  exists s', recv n s = (Ret ([], src), s') /\ stall (sk s').
Proof.
  intros HR (ES & EP & EB & _ & _ & HM & _ & HL & HA & _) HX EW HV HT HO HQ H1. rewrite (recv_first n b src rest s EW HM).
  change 1520%nat with (BUF_SIZE + HEADER_SIZE)%nat in HV.
  assert (EK : acked_sk q (sk s) = sk s). { unfold acked_sk. rewrite u16_eq. replace (_ =? 1) with false by lia. reflexivity. }
  assert (NK : exists td wn, sk (noted q (rx_state s)) = ss_their_delay td (ss_remote_wnd_size wn (sk s))) by (do 2 eexists; unfold noted; cbn [sk]; change (sk (rx_state s)) with (sk s); rewrite EK; reflexivity).
  destruct NK as (td & wn & NK).
  assert (KK : kept q PData (sk (noted q (rx_state s))) = ss_incoming_buffer [q] (ss_their_delay td (ss_remote_wnd_size wn (sk s)))).
  { rewrite NK. unfold kept. sproj. rewrite HL, EB. replace (ptype_eqb PData PData && _) with true by (rewrite u16_eq; cbn [ptype_eqb andb]; lia). reflexivity. }
  assert (FK : stall (kept q PData (sk (noted q (rx_state s))))).
  { rewrite KK. unfold stall. sproj. rewrite EP, ES. repeat (split; [solve [reflexivity|discriminate]|]). lia. }
  destruct (data_recv (recv_fuel (length (w_in (wd s)))) n (firstn (BUF_SIZE + HEADER_SIZE) b) src q (rx_state s) HV HT) as (s' & r & E & K & _); [exact HO|exact ES|rewrite NK; sproj; lia|apply all_sent_ok; exact HX| |].
  { rewrite KK. unfold buf_inv. sproj. split; [repeat constructor|]. constructor; [|constructor]. pose proof (parsed_valid _ _ HV). split; [assumption|exact HT]. }
  exists s'. rewrite StallProofs.stall_flush in E, K by exact FK. cbn [fst snd] in E, K. split; [|rewrite K; exact FK].
  exact E.
Qed.
Lemma old_copy_stalls n b src q rest s ops d src' : reachable s -> caught_up (s_ack_nr (sk s)) (sk s) -> all_sent s -> w_in (wd s) = RxDgram b src :: rest -> no_zero (w_in (wd s)) ->
  packet_try_from (firstn 1520 b) = Some (Ok q) -> get_type q = Some PData -> own_id (sk s) q -> seq_nr q < s_ack_nr (sk s) -> s_ack_nr (sk s) < 65535 ->
  In (Ret (VData d src')) (fst (run_ops (ORecvFrom n :: ops) s)) -> d = [].
Proof.
  intros HR HC HX EW HZ HV HT HO HQ H1 HI. pose proof (no_zero_heard _ HZ) as HZ'. set (evs := w_in (wd s)) in *.
  assert (HQ0 : seq_nr q <> 0) by (apply (HZ b src); [rewrite EW; now left|exact HV]). pose proof (seq_nr_range q) as HQr.
  destruct (old_copy n b src q rest s) as (s' & E & HS); auto; [lia|].
  assert (HP : PI evs s').
  { split; [|exact HS]. pose proof (reachable_opre s HR) as H0.
    pose proof (recv_fuel_steps (StallProofs.Ge evs) W0 (StallProofs.Ge_valid evs) W0_ts W0_tsd (S (length evs)) n s (proj1 H0)) as HF.
    unfold wp in HF. change (recv_fuel (S (length evs)) n s) with (recv n s) in HF. rewrite E in HF. cbn in HF. destruct HF as [HF _].
    eapply osteps_opre; [exact W0_ts|apply steps_osteps; exact HF|exact H0]. }
  destruct d as [|x d]; [reflexivity|exfalso].
  set (Q := fun (o : outcome (list byte * addr)) t => match o with Ret (d, _) => PI evs t /\ (d = [] \/ StallProofs.piece d) | Fail (Panic _) => True | _ => PI evs t end).
  assert (HW : wp (loop (length (w_in (wd s))) (fun _ : unit =>
      s <- get_sk ;; if sstate_eqb (s_state s) Closed then ret (inr ([], s_connected_to s)) else
        x <- recv n ;; if is_nil (fst x) then ret (inl tt) else ret (inr x)) tt) Q s').
  { apply (wp_loop (fun _ t => PI evs t)); [exact HP|intros _ t H; exact H|]. intros _ t HTt. unfold Q. do 2 wstep. destruct (sstate_eqb _ Closed); [wstep; auto|].
    wstep. eapply wp_conseq; [apply (StallProofs.recv_yields evs HZ'), HTt|]. intros [[d' a]|[k|l| |]] t1 H2; auto. destruct H2 as [H2 H3]. cbn [fst]. destruct (is_nil d'); wstep; auto. }
  unfold wp in HW. cbn [run_ops] in HI. destruct HC as (ES & EP & EB & _). cbn [run_op] in HI. unfold bind at 1 in HI. rewrite (recv_from_first n s EP EB ES), E in HI. cbn [is_nil] in HI.
  match type of HW with Q (fst ?x) _ => destruct x as [[[d' a]|[k|l| |]] s1] end; cbn [fst snd ret] in *; unfold Q in HW.
  all: try (destruct HI as [HI|HI]; [discriminate|]).
  - destruct HW as [HW [Hd|[]]]. subst d'. pose proof (StallProofs.run_ops_yields evs HZ' ops s1 (x :: d) src' HW) as HY.
    destruct (run_ops ops s1) as [rs s2]. cbn [fst] in *. destruct HI as [HI|HI]; [discriminate|]. apply HY; [exact HI|discriminate].
  - pose proof (StallProofs.run_ops_yields evs HZ' ops s1 (x :: d) src' HW) as HY. destruct (run_ops ops s1) as [rs s2]. cbn [fst] in *. destruct HI as [HI|HI]; [discriminate|]. apply HY; [exact HI|discriminate].
  - destruct HI.
  - pose proof (StallProofs.run_ops_yields evs HZ' ops s1 (x :: d) src' HW) as HY. destruct (run_ops ops s1) as [rs s2]. cbn [fst] in *. destruct HI as [HI|HI]; [discriminate|]. apply HY; [exact HI|discriminate].
  - pose proof (StallProofs.run_ops_yields evs HZ' ops s1 (x :: d) src' HW) as HY. destruct (run_ops ops s1) as [rs s2]. cbn [fst] in *. destruct HI as [HI|HI]; [discriminate|]. apply HY; [exact HI|discriminate].
Qed.
