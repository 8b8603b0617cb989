(** The acknowledgement number of a socket whose reader uses buffers that hold a whole packet only moves forward (C74). *)
From Verif Require Export NoPanicProofs.
Require Import ZifyBool ZifyNat ZifyN.
Local Open Scope Z_scope.
Ltac Zify.zify_post_hook ::= Z.div_mod_to_equations.

(** Payloads that fit in the buffers of the nested receives; every received datagram is cut at 1520 bytes. *)
Definition fits (p : packet) : Prop := (length p <= 1520)%nat.
Record whole (k : socket) : Prop := {
  wh_pending : s_pending_data k = [];
  wh_fits : Forall fits (s_incoming_buffer k);
  wh_open : s_state k <> New /\ s_state k <> SynSent
}.
Definition waiting (s : st) : Z := Z.of_nat (length (w_in (wd s))).
(** [a] to [b] is a move forward by at most [j]. *)
Definition ahead (j a b : Z) : Prop := exists i, 0 <= i <= j /\ b mod 65536 = (a + i) mod 65536.
Definition moved {A} (c : Z) (s : st) (o : outcome A) (s' : st) : Prop :=
  whole (sk s') /\ waiting s' <= waiting s /\ exists i, 0 <= i <= c + 2 * (waiting s - waiting s') /\ s_ack_nr (sk s') mod 65536 = (s_ack_nr (sk s) + i) mod 65536.
Definition fwd {A} (c : Z) (m : M A) : Prop := forall s, whole (sk s) -> wp m (moved c s) s.

Lemma moved_same {A} c s (o : outcome A) s' : 0 <= c -> whole (sk s') -> w_in (wd s') = w_in (wd s) -> s_ack_nr (sk s') = s_ack_nr (sk s) -> moved c s o s'.
Proof. intros HC HW HI HA. split; [exact HW|]. unfold waiting. rewrite HI, HA. split; [lia|]. exists 0. rewrite Z.add_0_r. split; [lia|reflexivity]. Qed.
Lemma moved_weak {A B} c c' s (o : outcome A) (o' : outcome B) s' : c <= c' -> moved c s o s' -> moved c' s o' s'.
Proof. intros HC (H1 & H2 & i & H3 & H4). split; [exact H1|]. split; [exact H2|]. exists i. split; [lia|exact H4]. Qed.
Lemma moved_trans {A B C} c c' s (o : outcome A) s1 (o1 : outcome B) s2 (o2 : outcome C) : moved c s o s1 -> moved c' s1 o1 s2 -> moved (c + c') s o2 s2.
Proof.
  intros (H1 & H2 & i & H3 & H4) (G1 & G2 & j & G3 & G4). split; [exact G1|]. split; [lia|]. exists (i + j). split; [lia|].
  rewrite G4. rewrite <- Zplus_mod_idemp_l, H4, Zplus_mod_idemp_l. f_equal. lia.
Qed.
Lemma fwd_weak {A} c c' (m : M A) : c <= c' -> fwd c m -> fwd c' m.
Proof. intros HC H s HW. eapply wp_conseq; [apply H, HW|]. intros o s'. now apply moved_weak. Qed.
Lemma fwd_bind {A B} c c' (m : M A) (f : A -> M B) : 0 <= c' -> fwd c m -> (forall a, fwd c' (f a)) -> fwd (c + c') (bind m f).
Proof.
  intros HC H1 H2 s HW. apply wp_bind. eapply wp_conseq; [apply H1, HW|]. intros [a|e] s' HM.
  - eapply wp_conseq; [apply H2, HM|]. intros o s'' HM'. eapply moved_trans; eauto.
  - eapply moved_weak; [|exact HM]. lia.
Qed.
Lemma fwd_bind0 {A B} c (m : M A) (f : A -> M B) : 0 <= c -> fwd 0 m -> (forall a, fwd c (f a)) -> fwd c (bind m f).
Proof. intros HC H1 H2. apply (fwd_bind 0 c); assumption. Qed.
Lemma fwd_get {B} c (f : socket -> M B) : (forall s, whole (sk s) -> wp (f (sk s)) (moved c s) s) -> fwd c (s <- get_sk ;; f s).
Proof. intros H s HW. do 2 wstep. apply H, HW. Qed.
Lemma fwd_ret {A} c (a : A) : 0 <= c -> fwd c (ret a). Proof. intros HC s HW. wstep. now apply moved_same. Qed.
Lemma fwd_fail {A} c f : 0 <= c -> fwd c (@fail A f). Proof. intros HC s HW. wstep. now apply moved_same. Qed.
Lemma fwd_throw {A} c k : 0 <= c -> fwd c (@throw A k). Proof. intros HC s HW. wstep. now apply moved_same. Qed.
Lemma fwd_sk c : 0 <= c -> fwd c get_sk. Proof. intros HC s HW. wstep. now apply moved_same. Qed.
Lemma fwd_event c : 0 <= c -> fwd c event_fuel. Proof. intros HC s HW. wstep. now apply moved_same. Qed.
Lemma fwd_now c : 0 <= c -> fwd c now_microseconds. Proof. intros HC s HW. wstep. now apply moved_same. Qed.
Lemma fwd_rand c : 0 <= c -> fwd c random_u16. Proof. intros HC s HW. apply wp_rand. intros v _. now apply moved_same. Qed.
Lemma fwd_upd c f : 0 <= c -> (forall k, whole k -> whole (f k) /\ s_ack_nr (f k) = s_ack_nr k) -> fwd c (upd_sk f).
Proof. intros HC H s HW. wstep. destruct (H _ HW). now apply moved_same. Qed.
Lemma fwd_arith c l lo hi wr v : 0 <= c -> fwd c (arith l lo hi wr v).
Proof. intros HC s HW. apply wp_arith; intros; now apply moved_same. Qed.
Lemma fwd_try {A} c (r : result A kind) : 0 <= c -> fwd c (try_ r). Proof. destruct r; [apply fwd_ret|apply fwd_throw]. Qed.
Lemma fwd_unwrap {A} c l (o : option A) : 0 <= c -> fwd c (unwrap l o). Proof. destruct o; [apply fwd_ret|apply fwd_fail]. Qed.
Lemma fwd_send c d p : 0 <= c -> fwd c (udp_send d p).
Proof. intros HC s HW. assert (E : w_in (wd (tx_state d p s)) = w_in (wd s)) by (unfold tx_state; destruct (tx_ok s); reflexivity). apply wp_udp_send; intros; now apply moved_same. Qed.
Lemma fwd_ignore {A} c (m : M A) : fwd c m -> fwd c (ignore_result m).
Proof.
  intros H s HW. specialize (H s HW). unfold wp, ignore_result in *. destruct (m s) as [[a|[k|l| |]] s']; cbn in *; (eapply moved_weak; [|exact H]; lia).
Qed.
Lemma fwd_loop {S A} f (body : S -> M (S + A)) : (forall x, fwd 0 (body x)) -> forall x, fwd 0 (loop f body x).
Proof.
  intros H. induction f as [|f IH]; intros x; cbn [loop]; [apply fwd_fail; lia|]. apply fwd_bind0; [lia|apply H|]. intros [y|a]; [apply IH|apply fwd_ret; lia].
Qed.
Lemma whole_eq k k' : s_pending_data k' = s_pending_data k -> s_incoming_buffer k' = s_incoming_buffer k -> s_state k' = s_state k -> whole k -> whole k'.
Proof. intros H1 H2 H3 [A B C]. constructor; congruence. Qed.
Ltac wsame := intros; split; [first [assumption | eapply whole_eq; [..|eassumption]; reflexivity]|reflexivity].
Ltac fwd := repeat (cbv beta zeta; match goal with
  | |- fwd _ (bind _ _) => apply fwd_bind0; [lia| |intros]
  | |- fwd _ (loop _ _ _) => apply fwd_loop; intros
  | |- fwd _ (ret _) => apply fwd_ret; lia
  | |- fwd _ (fail _) => apply fwd_fail; lia
  | |- fwd _ get_sk => apply fwd_sk; lia
  | |- fwd _ event_fuel => apply fwd_event; lia
  | |- fwd _ (upd_sk _) => apply fwd_upd; [lia|try solve [wsame]]
  | |- fwd _ now_microseconds => apply fwd_now; lia
  | |- fwd _ random_u16 => apply fwd_rand; lia
  | |- fwd _ (throw _) => apply fwd_throw; lia
  | |- fwd _ (throw_se _) => apply fwd_throw; lia
  | |- fwd _ (try_ _) => apply fwd_try; lia
  | |- fwd _ (unwrap _ _) => apply fwd_unwrap; lia
  | |- fwd _ (m_get_type _) => apply fwd_unwrap; lia
  | |- fwd _ (ignore_result _) => apply fwd_ignore
  | |- fwd _ (udp_send _ _) => apply fwd_send; lia
  | |- fwd _ (ck_u16 _ _) => apply fwd_arith; lia
  | |- fwd _ (ck_u32 _ _) => apply fwd_arith; lia
  | |- fwd _ (ck_u64 _ _) => apply fwd_arith; lia
  | |- fwd _ (ck_i32 _ _) => apply fwd_arith; lia
  | |- fwd _ (ck_i64 _ _) => apply fwd_arith; lia
  | |- fwd _ (if ?b then _ else _) => destruct b
  | |- fwd _ (match ?x with _ => _ end) => destruct x
  end); auto.

Lemma fits_insert p l : fits p -> Forall fits l -> Forall fits (insert_packet p l).
Proof.
  intros HP HL. unfold insert_packet. destruct (match last_opt l with Some _ => _ | None => _ end); [apply Forall_app; auto|].
  cbv zeta. destruct (match nth_error l _ with Some _ => _ | None => _ end); [|exact HL].
  match goal with |- Forall _ (firstn ?i _ ++ _) => rewrite <- (firstn_skipn i) in HL end. apply Forall_app in HL as [H1 H2]. apply Forall_app. auto.
Qed.
Lemma payload_loop_ge f p : forall i ty j, payload_loop f p i ty = Some j -> (i <= j)%nat.
Proof.
  induction f as [|f IH]; intros i ty j; cbn [payload_loop]; [discriminate|]. destruct (_ && _); [|intros [= <-]; lia].
  destruct (nth_error p (i + 1)); [|discriminate]. destruct (nth_error p i); [|discriminate]. intros H. apply IH in H. lia.
Qed.
Lemma payload_fits p pl n : fits p -> payload p = Some pl -> (1500 <= n)%nat -> firstn n pl = pl.
Proof.
  unfold fits. intros HF HP HN. apply firstn_all2. revert HP. unfold payload. destruct (nth_error p 1); [|discriminate].
  destruct (payload_loop _ p HEADER_SIZE _) as [j|] eqn:E; [|discriminate]. apply payload_loop_ge in E. unfold HEADER_SIZE in E.
  destruct (_ <=? _)%nat; [|discriminate]. intros [= <-]. rewrite skipn_length. lia.
Qed.
Lemma fwd_flush_in n : (1500 <= n)%nat -> fwd 1 (flush_incoming_buffer n).
Proof.
  intros HN. unfold flush_incoming_buffer. apply fwd_get. intros s HW. rewrite (wh_pending _ HW). cbn [is_nil negb].
  destruct (s_incoming_buffer (sk s)) as [|p rest] eqn:EB; [apply fwd_ret; [lia|exact HW]|].
  assert (HF : fits p) by (pose proof (wh_fits _ HW) as H; rewrite EB in H; now inversion H).
  apply wp_bind. apply wp_intro. intros o s1 H1.
  assert (HS : s1 = s /\ match o with Ret true => seq_nr p = s_ack_nr (sk s) \/ seq_nr p = (s_ack_nr (sk s) + 1) mod 65536 | _ => True end).
  { revert H1. unfold ck_u16, arith, bind, ret, fail. destruct (_ =? _) eqn:E; [intros [= <- <-]; split; [reflexivity|left; lia]|]. destruct (_ && _); intros [= <- <-]; [auto|].
    split; [reflexivity|]. rewrite u16_eq. destruct ((s_ack_nr (sk s) + 1) mod 65536 =? seq_nr p) eqn:E2; [|exact I]. right. symmetry. now apply Z.eqb_eq. }
  destruct HS as [-> HS]. destruct o as [[]|e]; [|apply fwd_ret; [lia|exact HW]|apply moved_same; auto; lia].
  unfold unwrap. destruct (payload p) as [pl|] eqn:EP; [|unfold wp; cbn; apply moved_same; auto; lia]. wstep. wstep. rewrite (payload_fits _ _ _ HF EP HN). rewrite Nat.eqb_refl.
  unfold advance_incoming_buffer. do 3 wstep. unfold advance_socket. rewrite EB. split.
  - destruct HW as [A B C]. constructor; sproj; auto. rewrite EB in B. now inversion B.
  - unfold waiting. sproj. split; [lia|]. destruct HS as [->| ->]; [exists 0|exists 1]; (split; [lia|]); rewrite ?Z.mod_mod by lia; f_equal; lia.
Qed.
Lemma fwd_reply p t : fwd 0 (prepare_reply p t). Proof. unfold prepare_reply. fwd. Qed.
Lemma fwd_attach p r : fwd 0 (attach_sack p r). Proof. unfold attach_sack, build_selective_ack. fwd. Qed.
Lemma fwd_base d t : fwd 0 (update_base_delay d t).
Proof. unfold update_base_delay. fwd. intros k HW. unfold base_delay_socket. destruct (_ || _); cbv zeta; [wsame|]. destruct (_ <? _); [|now split]. revert k HW; wsame. Qed.
Lemma fwd_rto d : fwd 0 (update_congestion_timeout d). Proof. unfold update_congestion_timeout. fwd. Qed.
Lemma fwd_process_ack i : fwd 0 (process_ack i).
Proof. unfold process_ack, queuing_delay, update_congestion_window, update_current_delay. fwd; auto using fwd_base, fwd_rto. Qed.
Lemma fwd_drop n : fwd 0 (drop_acked n). Proof. induction n as [|n IH]; cbn [drop_acked]; fwd. Qed.
Lemma fwd_advance : fwd 0 advance_send_window. Proof. unfold advance_send_window. fwd. apply fwd_drop. Qed.
Lemma fwd_fin : fwd 0 send_fin. Proof. unfold send_fin. fwd. Qed.
Lemma fwd_timeout : fwd 0 handle_receive_timeout.
Proof. unfold handle_receive_timeout, send_fast_resend_request, fast_resend_packet. fwd; apply fwd_fin. Qed.
(** A datagram taken from the network pays for two moves. *)
Definition taken (s : st) (o : outcome (list byte * addr)) (s' : st) : Prop :=
  match o with Ret (b, _) => moved (-2) s o s' /\ (length b <= 1520)%nat | _ => moved 0 s o s' end.
Lemma rx_moved {A} c s (o : outcome A) ev rest : whole (sk s) -> w_in (wd s) = ev :: rest -> -2 <= c -> moved c s o (rx_state s).
Proof.
  intros HW HI HC. split; [exact HW|]. unfold waiting, rx_state. sproj. rewrite HI. cbn [tl length]. split; [lia|]. exists 0. rewrite Z.add_0_r. split; [lia|reflexivity].
Qed.
Lemma taken_wait : forall s, whole (sk s) -> wp wait_datagram (taken s) s.
Proof.
  intros s0 H0. unfold wait_datagram. do 2 wstep.
  eapply (wp_loop (fun _ s => moved 0 s0 (Ret tt) s)); [apply moved_same; auto; lia|intros _ t H; eapply moved_weak; [|exact H]; lia|].
  intros r t HM. assert (HW : whole (sk t)) by apply HM. do 2 wstep. destruct (_ <=? _).
  { do 2 wstep. wstep. cbn [taken]. match goal with |- moved _ _ _ ?u => assert (HU : moved 0 t (Ret tt) u) end.
    { apply moved_same; [lia| |reflexivity|reflexivity]. destruct HW as [A B C]. constructor; sproj; auto. split; discriminate. }
    eapply moved_weak; [|eapply (moved_trans _ _ _ _ _ _ _ (Ret tt)); [exact HM|exact HU]]; lia. }
  apply wp_bind, wp_udp_recv.
  - intros _. cbn [taken]. eapply moved_weak; [|exact HM]; lia.
  - intros d src rest E. wstep. split; [|apply firstn_le_length].
    eapply moved_weak; [|eapply (moved_trans _ _ _ _ _ _ _ (Ret tt)); [exact HM|apply (rx_moved (-2) _ (Ret tt) _ _ HW E)]]; lia.
  - intros k rest E. assert (HM1 : moved 0 s0 (Ret tt) (rx_state t)) by (eapply moved_weak; [|eapply (moved_trans _ _ _ _ _ _ _ (Ret tt)); [exact HM|apply (rx_moved 0 _ (Ret tt) _ _ HW E)]]; lia).
    destruct (is_timeout k); [|wstep; cbn [taken]; eapply moved_weak; [|exact HM1]; lia]. apply wp_bind. eapply wp_conseq; [apply fwd_timeout, HM1|].
    intros [[]|e] t1 H1; [wstep|cbn [taken]]; (eapply moved_weak; [|eapply (moved_trans _ _ _ _ _ _ _ (Ret tt)); [exact HM1|exact H1]]; lia).
  - intros rest E. cbn [taken]. eapply moved_weak; [|eapply (moved_trans _ _ _ _ _ _ _ (Ret tt)); [exact HM|apply (rx_moved 0 _ (Ret tt) _ _ HW E)]]; lia.
Qed.

Section Fwd.
  Variable rec : nat -> M (list byte * addr).
  Hypothesis Hrec : forall n, (1500 <= n)%nat -> fwd 0 (rec n).
  Lemma fwd_rec : fwd 0 (rec BUF_SIZE). Proof. apply Hrec. unfold BUF_SIZE. lia. Qed.
  Lemma fwd_send_packet p : fwd 0 (send_packet rec p). Proof. unfold send_packet. fwd. Qed.
  Lemma fwd_resend l : fwd 0 (resend_lost_packet rec l). Proof. unfold resend_lost_packet. fwd. apply fwd_send_packet. Qed.
  Lemma fwd_gaps a bits q : forall i loss, fwd 0 (resend_gaps rec a i bits q loss).
  Proof. induction bits as [|[] bits IH]; intros; cbn [resend_gaps]; fwd. apply fwd_resend. Qed.
  Lemma fwd_exts a exts : forall loss, fwd 0 (process_extensions rec a exts loss).
  Proof. induction exts as [|e exts IH]; intros; cbn [process_extensions]; fwd; [apply fwd_resend|apply fwd_gaps]. Qed.
  Lemma fwd_state p : fwd 0 (handle_state_packet rec p).
  Proof. unfold handle_state_packet, note_ack, finish_state_packet. fwd; auto using fwd_process_ack, fwd_exts, fwd_resend, fwd_advance. Qed.
  Lemma fwd_dispatch p ty src : fwd 0 (dispatch rec p ty src).
  Proof.
    unfold dispatch. apply fwd_get. intros s HW. destruct (wh_open _ HW) as [H1 H2].
    destruct (s_state (sk s)); try congruence; destruct ty; match goal with |- wp ?m _ _ => assert (HS : fwd 0 m); [|apply HS, HW] end;
      unfold handle_data_packet; fwd; auto using fwd_reply, fwd_attach, fwd_state;
      (intros k' [A B C]; split; [constructor; sproj; auto; split; discriminate|reflexivity]).
  Qed.
  Lemma fwd_handle p src : fwd 1 (handle_packet rec p src).
  Proof.
    unfold handle_packet. apply (fwd_bind 1 0); [lia| |intros _].
    - intros s HW. unfold ack_in_order. wstep. destruct (_ =? 1) eqn:E; [|apply moved_same; auto; lia].
      split; [eapply whole_eq; [..|exact HW]; reflexivity|]. unfold waiting. sproj. split; [lia|]. exists 1. split; [lia|]. rewrite u16_eq in E.
      assert (HE : (seq_nr p - s_ack_nr (sk s)) mod 65536 = 1) by lia. clear - HE. lia.
    - fwd; auto using fwd_reply, fwd_dispatch.
  Qed.
  Lemma fwd_process n b src : (1500 <= n)%nat -> (length b <= 1520)%nat -> fwd 2 (process_datagram rec n b src).
  Proof.
    intros HN HB. unfold process_datagram. destruct (parse_total b) as [[p|e] E]; rewrite E; cbn [unwrap]; match goal with |- fwd _ (bind (ret ?a) ?f) => change (fwd 2 (f a)) end; cbv beta iota; [|fwd].
    assert (HF : fits p) by (pose proof (parse_inv b p E) as [-> _]; exact HB).
    apply (fwd_bind 1 1); [lia|apply fwd_handle|]. intros reply.
    apply fwd_bind0; [lia|fwd|intros _]. apply fwd_bind0; [lia|fwd|intros ty]. apply fwd_bind0; [lia|fwd|intros k]. apply fwd_bind0; [lia| |intros _].
    - unfold insert_into_buffer. fwd. intros k' [A B C]. split; [|reflexivity]. constructor; sproj; auto. now apply fits_insert.
    - apply (fwd_bind 1 0); [lia|now apply fwd_flush_in|]. intros d. fwd.
  Qed.
  Lemma fwd_body n : (1500 <= n)%nat -> fwd 0 (recv_body rec n).
  Proof.
    intros HN s HW. unfold recv_body. apply wp_bind. eapply wp_conseq; [apply taken_wait, HW|]. intros [[b src]|e] s1 HT; [|exact HT].
    destruct HT as [HT HB]. cbn [fst snd]. eapply wp_conseq; [apply fwd_process; [exact HN|exact HB|apply HT]|].
    intros o s2 H2. change 0 with (-2 + 2). eapply moved_trans; eauto.
  Qed.
End Fwd.
Lemma fwd_fuel f : forall n, (1500 <= n)%nat -> fwd 0 (recv_fuel f n).
Proof. induction f as [|f IH]; intros n HN; cbn [recv_fuel]; [apply fwd_fail; lia|]. now apply fwd_body. Qed.
Lemma fwd_recv n : (1500 <= n)%nat -> fwd 0 (recv n). Proof. intros HN. unfold recv. fwd. now apply fwd_fuel. Qed.
Lemma fwd_recv0 : fwd 0 (recv BUF_SIZE). Proof. apply fwd_recv. unfold BUF_SIZE. lia. Qed.
Lemma fwd_recv_from n : (1500 <= n)%nat -> fwd 1 (recv_from n).
Proof. intros HN. unfold recv_from. apply (fwd_bind 1 0); [lia|now apply fwd_flush_in|]. intros d. fwd. now apply fwd_recv. Qed.
Lemma fwd_flush : fwd 0 flush. Proof. unfold flush. fwd. apply fwd_recv0. Qed.
Lemma fwd_close : fwd 0 close.
Proof.
  unfold close. fwd; auto using fwd_flush, fwd_fin, fwd_recv0; (intros k' [A B C]; split; [constructor; sproj; auto; split; discriminate|reflexivity]).
Qed.
Lemma fwd_sending : fwd 0 send. Proof. unfold send. fwd. apply fwd_send_packet. intros; now apply fwd_recv. Qed.
Lemma queue_same cs : forall k, s_pending_data (fold_left (fun s c => queue_chunk c s) cs k) = s_pending_data k /\ s_incoming_buffer (fold_left (fun s c => queue_chunk c s) cs k) = s_incoming_buffer k /\
  s_state (fold_left (fun s c => queue_chunk c s) cs k) = s_state k /\ s_ack_nr (fold_left (fun s c => queue_chunk c s) cs k) = s_ack_nr k.
Proof. induction cs as [|c cs IH]; intros k; [auto|]. cbn [fold_left]. destruct (IH (queue_chunk c k)) as (H1 & H2 & H3 & H4). rewrite H1, H2, H3, H4. auto. Qed.
Lemma fwd_send_to d : fwd 0 (send_to d).
Proof.
  unfold send_to. fwd; [|apply fwd_sending]. intros k HW. destruct (queue_same (chunks CHUNK d) k) as (H1 & H2 & H3 & H4). split; [eapply whole_eq; eauto|exact H4].
Qed.
Definition roomy (o : op) : Prop := match o with ORecvFrom n => (1500 <= n)%nat | _ => True end.
Definition reads (o : op) : Z := match o with ORecvFrom _ => 1 | _ => 0 end.
Lemma fwd_run_op o : roomy o -> fwd (reads o) (run_op o).
Proof.
  intros HO. destruct o; cbn [run_op reads roomy] in *.
  - apply (fwd_bind 1 0); [lia|now apply fwd_recv_from|]. intros; fwd.
  - fwd. apply fwd_send_to.
  - fwd. apply fwd_flush.
  - fwd. apply fwd_close.
  - fwd.
  - unfold peer_addr. fwd.
Qed.
Definition all_reads (ops : list op) : Z := fold_right (fun o n => reads o + n) 0 ops.
Lemma reads_pos o : 0 <= reads o <= 1. Proof. destruct o; cbn; lia. Qed.
Lemma all_reads_pos ops : 0 <= all_reads ops. Proof. induction ops as [|o ops IH]; cbn [all_reads fold_right]; [lia|]. fold (all_reads ops). pose proof (reads_pos o). lia. Qed.
Lemma fwd_run_ops ops : Forall roomy ops -> forall s, whole (sk s) -> moved (all_reads ops) s (Ret tt) (snd (run_ops ops s)).
Proof.
  induction 1 as [|o ops HO HF IH]; intros s HW; cbn [run_ops all_reads fold_right]; [apply moved_same; auto; lia|]. fold (all_reads ops).
  pose proof (all_reads_pos ops). pose proof (fwd_run_op o HO s HW) as H1. unfold wp in H1. destruct (run_op o s) as [r s1]. cbn [fst snd] in H1.
  assert (HN : moved (reads o + all_reads ops) s (Ret tt) (snd (run_ops ops s1))) by (eapply moved_trans; [exact H1|apply IH, H1]).
  destruct r as [v|[k|l| |]]; try (destruct (run_ops ops s1); exact HN). cbn [snd]. eapply moved_weak; [|exact H1]. lia.
Qed.
