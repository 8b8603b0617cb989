(** Acknowledgements count on State packets only (C108). *)
From Verif Require Export SendProofs TermProofs SenderProofs.
Require Import ZifyBool ZifyNat ZifyN.
Local Open Scope Z_scope.

Definition no_state (evs : list rx) : Prop := forall d src p, In (RxDgram d src) evs -> packet_try_from (firstn 1520 d) = Some (Ok p) -> get_type p <> Some PState.
Definition grown (w w' : list packet) : Prop := match w with [] => True | _ :: t => exists q more, w' = q :: t ++ more end.
Lemma grown_trans w1 w2 w3 : grown w1 w2 -> grown w2 w3 -> grown w1 w3.
Proof. destruct w1 as [|p t]; [constructor|]. intros (q & more & ->). intros (q' & more' & ->). exists q', (more ++ more'). now rewrite app_assoc. Qed.
Lemma grown_refl w : grown w w. Proof. destruct w; cbn; auto. exists p, []. now rewrite app_nil_r. Qed.
Lemma window_grows evs w w' : no_state evs -> clos_refl_trans _ (window_change (acked_in evs)) w w' -> grown w w'.
Proof.
  intros HN H. induction H as [w w' H| |w1 w2 w3 _ IH1 _ IH2]; [|apply grown_refl|now apply grown_trans with w2].
  destruct H as [w|p rest t|w p|w1 p w2 (d & src & q & H1 & H2 & H3 & _)]; [apply grown_refl| | |now destruct (HN d src q H1 H2)].
  - exists (set_timestamp t p), []. now rewrite app_nil_r.
  - destruct w as [|x t]; cbn; auto. exists x, [p]. reflexivity.
Qed.
Lemma no_state_rest o s : no_state (w_in (wd s)) -> no_state (w_in (wd (snd (run_op o s)))).
Proof. intros H d src p HI. destruct (run_op_ended o s) as ([used H1] & _). apply (H d src p). rewrite H1. apply in_or_app. now right. Qed.
Lemma flush_pends s v s' : reachable s -> no_state (w_in (wd s)) -> s_send_window (sk s) <> [] -> flush s = (v, s') -> v <> Ret tt.
Proof.
  intros HR HN HW E ->. destruct (flush_acked s s' HR E) as (H1 & _).
  assert (ER : run_op OFlush s = (Ret VUnit, s')) by (cbn [run_op]; unfold bind; now rewrite E).
  pose proof (window_grows _ _ _ HN (run_op_window_in OFlush s _ s' HR ER ltac:(discriminate))) as G. unfold grown in G. rewrite H1 in G. destruct (s_send_window (sk s)); [congruence|]. now destruct G as (q & more & G).
Qed.
Lemma piggy ops : forall s, reachable s -> no_state (w_in (wd s)) -> existsb panicked (fst (run_ops ops s)) = false ->
  grown (s_send_window (sk s)) (s_send_window (sk (snd (run_ops ops s)))) /\
  (s_send_window (sk s) <> [] -> forall i v, nth_error ops i = Some OFlush -> nth_error (fst (run_ops ops s)) i <> Some (Ret v)).
Proof.
  induction ops as [|o ops IH]; intros s HR HN HP; cbn [run_ops] in *.
  { split; [apply grown_refl|]. intros _ [|i] v H; discriminate. }
  destruct (run_op o s) as [v s1] eqn:E. assert (HV : not_panic v) by (intros l ->; cbn in HP; discriminate).
  assert (HR1 : reachable s1) by (eapply rc_op; eauto). pose proof (no_state_rest o s HN) as HN1. rewrite E in HN1. cbn [snd] in HN1.
  pose proof (window_grows _ _ _ HN (run_op_window_in o s v s1 HR E HV)) as G1.
  assert (IH' : existsb panicked (fst (run_ops ops s1)) = false -> grown (s_send_window (sk s)) (s_send_window (sk (snd (run_ops ops s1)))) /\
    (s_send_window (sk s) <> [] -> forall i u, nth_error (o :: ops) i = Some OFlush -> nth_error (v :: fst (run_ops ops s1)) i <> Some (Ret u))).
  { intros HP1. destruct (IH s1 HR1 HN1 HP1) as (G2 & HF). split; [now apply grown_trans with (s_send_window (sk s1))|]. intros HW [|i] u Hi; cbn [nth_error] in *.
    - injection Hi as ->. intros [= ->]. cbn [run_op] in E. unfold bind in E. destruct (flush s) as [[[]|f] s0] eqn:EF; [|discriminate]. now apply (flush_pends s (Ret tt) s0 HR HN HW EF).
    - apply HF; auto. destruct (s_send_window (sk s)); [congruence|]. destruct G1 as (q & more & ->). discriminate. }
  destruct (run_ops ops s1) as [rs s2] eqn:E2. cbn [fst snd] in *.
  destruct v as [v|[k|l| |]]; try (now destruct (HV l)); cbn [existsb fst snd] in *; apply orb_false_elim in HP as [_ HP]; exact (IH' HP).
Qed.
Lemma close_pends s : reachable s -> no_state (w_in (wd s)) -> s_send_window (sk s) <> [] -> s_state (sk s) = Connected -> fst (close s) <> Ret tt.
Proof.
  intros HR HN HW HS. unfold close, bind at 1, get_sk at 1. rewrite HS. unfold bind at 1. destruct (flush s) as [[[]|f] s1] eqn:E; [now destruct (flush_pends s _ s1 HR HN HW E)|discriminate].
Qed.
