(** The timer of a socket that has nothing in flight: every timeout doubles it, nothing else changes it (C113). *)
From Verif Require Export LostProofs.
Require Import ZifyBool ZifyNat ZifyN.
Local Open Scope Z_scope.

Definition timeouts (l : list rx) : nat := length (filter (fun e => match e with RxErr k => is_timeout k | _ => false end) l).
Definition charged (T0 : Z) (L0 : list rx) (T : Z) (L : list rx) : Prop := exists used, L0 = used ++ L /\ T = (T0 * 2 ^ Z.of_nat (timeouts used)) mod 2 ^ 64.
Lemma charged_other T0 L0 T e L : match e with RxErr k => is_timeout k | _ => false end = false -> charged T0 L0 T (e :: L) -> charged T0 L0 T L.
Proof.
  intros HE (used & H1 & H2). exists (used ++ [e]). split; [now rewrite <- app_assoc|]. unfold timeouts in *. rewrite filter_app, app_length. cbn [filter]. rewrite HE. cbn [length]. now rewrite Nat.add_0_r.
Qed.
Lemma charged_timeout T0 L0 T k L : is_timeout k = true -> charged T0 L0 T (RxErr k :: L) -> charged T0 L0 (u64 (T * 2)) L.
Proof.
  intros HE (used & H1 & H2). exists (used ++ [RxErr k]). split; [now rewrite <- app_assoc|]. unfold timeouts in *. rewrite filter_app, app_length. cbn [filter]. rewrite HE. cbn [length].
  rewrite Nat.add_1_r, Nat2Z.inj_succ, Z.pow_succ_r by lia. rewrite H2. unfold u64, wrap. rewrite Zmult_mod_idemp_l. f_equal. ring.
Qed.
Section Timer.
  Variables (T0 : Z) (L0 : list rx).
  Definition TS (s : st) : Prop := s_send_window (sk s) = [] /\ charged T0 L0 (s_congestion_timeout (sk s)) (w_in (wd s)).
  Definition tp {A} (m : M A) (V : A -> Prop) : Prop := forall s, TS s -> wp m (fun o s' => match o with Fail (Panic _) => True | Ret a => TS s' /\ V a | _ => TS s' end) s.
  Definition anyv {A} (_ : A) : Prop := True.
  Lemma tp_bind {A B} (m : M A) (f : A -> M B) V V' : tp m V -> (forall a, V a -> tp (f a) V') -> tp (bind m f) V'.
  Proof. intros H1 H2 s HS. apply wp_bind. eapply wp_conseq; [apply H1; exact HS|]. intros [a|[]] t; cbv beta iota; auto. intros [HT HV]. now apply H2. Qed.
  Lemma tp_bind_any {A B} (m : M A) (f : A -> M B) V' : tp m anyv -> (forall a, tp (f a) V') -> tp (bind m f) V'.
  Proof. intros H1 H2. apply (tp_bind m f anyv); auto. Qed.
  Lemma tp_any {A} (m : M A) V : tp m V -> tp m anyv.
  Proof. intros H s HS. eapply wp_conseq; [apply H; exact HS|]. intros [a|[]] t; cbv beta iota; unfold anyv; tauto. Qed.
  Lemma tp_get {B} (f : socket -> M B) V : (forall k, s_send_window k = [] -> tp (f k) V) -> tp (s <- get_sk ;; f s) V.
  Proof. intros H s HS. do 2 wstep. apply H; [apply HS|exact HS]. Qed.
  Lemma tp_ret {A} (a : A) (V : A -> Prop) : V a -> tp (ret a) V. Proof. intros HV s HS. wstep. now split. Qed.
  Lemma tp_fail {A} f V : tp (@fail A f) V. Proof. intros s HS. wstep. destruct f; auto. Qed.
  Lemma tp_throw {A} k V : tp (@throw A k) V. Proof. intros s HS. wstep. exact HS. Qed.
  Lemma tp_event : tp event_fuel anyv. Proof. intros s HS. wstep. now split. Qed.
  Lemma tp_now : tp now_microseconds anyv. Proof. intros s HS. wstep. now split. Qed.
  Lemma tp_rand : tp random_u16 anyv. Proof. intros s HS. apply wp_rand. intros v _. now split. Qed.
  Lemma tp_upd f : (forall k, s_send_window k = [] -> s_send_window (f k) = [] /\ s_congestion_timeout (f k) = s_congestion_timeout k) -> tp (upd_sk f) anyv.
  Proof. intros H s [H1 H2]. wstep. destruct (H (sk s) H1) as [H3 H4]. split; [|exact I]. split; [exact H3|]. sproj. rewrite H4. exact H2. Qed.
  Lemma tp_arith l lo hi wr v : tp (arith l lo hi wr v) anyv. Proof. intros s HS. apply wp_arith; intros; cbv beta iota; auto. now split. Qed.
  Lemma tp_try {A} (r : result A kind) : tp (try_ r) anyv. Proof. destruct r; [apply tp_ret; exact I|apply tp_throw]. Qed.
  Lemma tp_unwrap {A} l (o : option A) : tp (unwrap l o) anyv. Proof. destruct o; [apply tp_ret; exact I|apply tp_fail]. Qed.
  Lemma tp_send d p : tp (udp_send d p) anyv.
  Proof.
    intros s HS. assert (HS' : TS (tx_state d p s)) by (unfold TS, tx_state in *; destruct (tx_ok s); sproj; exact HS).
    apply wp_udp_send; intros; cbv beta iota; auto; split; auto; exact I.
  Qed.
  Lemma tp_ignore {A} (m : M A) V : tp m V -> tp (ignore_result m) anyv.
  Proof. intros H s HS. specialize (H s HS). unfold wp, ignore_result in *. destruct (m s) as [[a|[k|l| |]] s']; cbn in *; unfold anyv; tauto. Qed.
  Ltac tsame := intros; split; [assumption|reflexivity].
  Ltac tp := repeat (cbv beta zeta; match goal with
    | |- tp (bind get_sk _) _ => apply tp_get; intros
    | |- tp (bind _ _) _ => apply tp_bind_any; [|intros]
    | |- tp (ret _) anyv => apply tp_ret; exact I
    | |- tp (fail _) _ => apply tp_fail
    | |- tp event_fuel _ => apply tp_event
    | |- tp (upd_sk _) anyv => apply tp_upd; try solve [tsame]
    | |- tp now_microseconds anyv => apply tp_now
    | |- tp random_u16 anyv => apply tp_rand
    | |- tp (throw _) _ => apply tp_throw
    | |- tp (throw_se _) _ => apply tp_throw
    | |- tp (try_ _) anyv => apply tp_try
    | |- tp (unwrap _ _) anyv => apply tp_unwrap
    | |- tp (m_get_type _) anyv => apply tp_unwrap
    | |- tp (udp_send _ _) anyv => apply tp_send
    | |- tp (ignore_result _) anyv => eapply tp_ignore
    | |- tp (ck_u16 _ _) anyv => apply tp_arith
    | |- tp (ck_u32 _ _) anyv => apply tp_arith
    | |- tp (ck_u64 _ _) anyv => apply tp_arith
    | |- tp (ck_i32 _ _) anyv => apply tp_arith
    | |- tp (ck_i64 _ _) anyv => apply tp_arith
    | |- tp (if ?b then _ else _) _ => destruct b eqn:?
    | |- tp (match ?x with _ => _ end) _ => destruct x eqn:?
    end); auto.
  Lemma tp_reply p t : tp (prepare_reply p t) anyv. Proof. unfold prepare_reply. tp. Qed.
  Lemma tp_attach p r : tp (attach_sack p r) anyv. Proof. unfold attach_sack, build_selective_ack. tp. Qed.
  Lemma tp_flush_in n : tp (flush_incoming_buffer n) anyv.
  Proof. unfold flush_incoming_buffer, advance_incoming_buffer. tp; intros k' Hk'; unfold advance_socket; destruct (s_incoming_buffer k'); split; auto. Qed.
  Lemma tp_advance : tp advance_send_window anyv.
  Proof. unfold advance_send_window. apply tp_get. intros k HK. rewrite HK. destruct (position _ []) eqn:E; [discriminate E|]. tp. Qed.
  Lemma tp_fin : tp send_fin anyv. Proof. unfold send_fin. tp. Qed.
  Lemma tp_fast : tp fast_resend_packet anyv. Proof. unfold fast_resend_packet. tp. Qed.
  Lemma tp_requests : tp send_fast_resend_request anyv. Proof. unfold send_fast_resend_request. tp; apply tp_fast. Qed.
  (** The timeout and the doubling together. *)
  Lemma timeout_doubles s : s_send_window (sk s) = [] -> charged T0 L0 (u64 (s_congestion_timeout (sk s) * 2)) (w_in (wd s)) ->
    wp handle_receive_timeout (fun o s' => match o with Fail (Panic _) => True | _ => TS s' end) s.
  Proof.
    intros H1 H2. unfold handle_receive_timeout. do 3 wstep. apply wp_arith; intros; [exact I|]. cbv beta iota. do 2 wstep. set (s1 := mkSt _ _).
    assert (HS : TS s1) by (unfold TS, s1; sproj; now split).
    match goal with |- wp ?m _ _ => assert (HM : tp m anyv) end.
    { apply tp_get. intros k HK. rewrite HK. tp; [apply tp_fin|apply tp_requests]. }
    eapply wp_conseq; [apply HM; exact HS|]. intros [a|[]] t; cbv beta iota; tauto.
  Qed.
  Lemma tp_wait : tp wait_datagram anyv.
  Proof.
    unfold wait_datagram. apply tp_bind_any; [tp|]. intros f. generalize 0. induction f as [|f IH]; intros r; cbn [loop]; [apply tp_fail|].
    intros s HS. do 3 wstep. destruct (_ <=? _); [do 3 wstep; exact HS|]. wstep. destruct HS as [H1 H2].
    apply wp_udp_recv.
    - intros _. split; [exact H1|exact H2].
    - intros d src rest E. do 2 wstep. rewrite E in H2. split; [|exact I]. split; [exact H1|]. unfold rx_state. sproj. rewrite E. cbn [tl]. eapply charged_other; [|exact H2]. reflexivity.
    - intros k rest E. rewrite E in H2. destruct (is_timeout k) eqn:EK.
      + wstep. eapply wp_conseq; [apply timeout_doubles; [exact H1|]|].
        * unfold rx_state. sproj. rewrite E. cbn [tl]. eapply charged_timeout; eassumption.
        * intros [a|[]] t; cbv beta iota; auto. intros HT. wstep. now apply IH.
      + wstep. split; [exact H1|]. unfold rx_state. sproj. rewrite E. cbn [tl]. apply (charged_other _ _ _ (RxErr k)); [exact EK|exact H2].
    - intros rest E. rewrite E in H2. split; [exact H1|]. unfold rx_state. sproj. rewrite E. cbn [tl]. eapply charged_other; [|exact H2]. reflexivity.
  Qed.
  Section Rec.
    Variable rec : nat -> M (list byte * addr).
    Lemma tp_resend l : tp (resend_lost_packet rec l) anyv.
    Proof. unfold resend_lost_packet. apply tp_get. intros k HK. rewrite HK. destruct (position _ []) eqn:E; [discriminate E|]. tp. Qed.
    Lemma tp_gaps a bits l : forall i loss, tp (resend_gaps rec a i bits l loss) anyv.
    Proof. induction bits as [|[] bits IH]; intros; cbn [resend_gaps]; tp. apply tp_resend. Qed.
    Lemma tp_exts a exts : forall loss, tp (process_extensions rec a exts loss) anyv.
    Proof. induction exts as [|e exts IH]; intros; cbn [process_extensions]; tp; [apply tp_resend|apply tp_gaps]. Qed.
    Lemma tp_state p : tp (handle_state_packet rec p) anyv.
    Proof.
      unfold handle_state_packet, note_ack, finish_state_packet. tp; auto using tp_exts, tp_resend, tp_advance.
      all: repeat match goal with H : s_send_window ?k = [] |- _ => rewrite H in * end; try discriminate.
    Qed.
    Lemma tp_dispatch p ty src : tp (dispatch rec p ty src) anyv.
    Proof. unfold dispatch, handle_data_packet. tp; auto using tp_reply, tp_attach, tp_state. Qed.
    Lemma tp_handle p src : tp (handle_packet rec p src) anyv.
    Proof. unfold handle_packet, ack_in_order. tp; auto using tp_reply, tp_dispatch. intros k' HK'. destruct (_ =? 1); now split. Qed.
    Lemma tp_process n b src : tp (process_datagram rec n b src) anyv.
    Proof. unfold process_datagram, insert_into_buffer. tp; auto using tp_handle, tp_flush_in. Qed.
    Lemma tp_body n : tp (recv_body rec n) anyv. Proof. unfold recv_body. tp; auto using tp_wait, tp_process. Qed.
  End Rec.
  Lemma tp_loop {S A} f (body : S -> M (S + A)) : (forall x, tp (body x) anyv) -> forall x, tp (loop f body x) anyv.
  Proof. intros H. induction f as [|f IH]; intros x; cbn [loop]; [apply tp_fail|]. apply tp_bind_any; [apply H|]. intros [y|a]; [apply IH|apply tp_ret; exact I]. Qed.
  Lemma tp_recv n : tp (recv n) anyv. Proof. unfold recv. tp. destruct a; cbn [recv_fuel]; [apply tp_fail|apply tp_body]. Qed.
  Lemma tp_recv_from n : tp (recv_from n) anyv.
  Proof. unfold recv_from. tp; [apply tp_flush_in|]. apply tp_loop. intros _. tp. apply tp_recv. Qed.
End Timer.
Lemma read_timer n s v s' : 0 <= s_congestion_timeout (sk s) < 2 ^ 64 -> s_send_window (sk s) = [] -> run_op (ORecvFrom n) s = (v, s') -> not_panic v ->
  s_send_window (sk s') = [] /\ charged (s_congestion_timeout (sk s)) (w_in (wd s)) (s_congestion_timeout (sk s')) (w_in (wd s')).
Proof.
  intros HR HW E HN. assert (HS : TS (s_congestion_timeout (sk s)) (w_in (wd s)) s).
  { split; [exact HW|]. exists []. split; [reflexivity|]. cbn [timeouts filter length]. change (Z.of_nat (timeouts [])) with 0. rewrite Z.mul_1_r. symmetry. now apply Z.mod_small. }
  pose proof (tp_recv_from _ _ n s HS) as H. unfold wp in H. revert E. cbn [run_op]. unfold bind.
  destruct (recv_from n s) as [[x|[k|l| |]] s1]; cbn [fst snd] in H; intros [= <- <-]; try exact H; try apply H. exfalso. now apply (HN l).
Qed.
