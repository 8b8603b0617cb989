(** Lemmas for C32, C38-C41, C50. *)
From Verif Require Export Inv.
Require Import ZifyBool ZifyNat ZifyN.
Local Open Scope Z_scope.
Ltac Zify.zify_post_hook ::= Z.to_euclidean_division_equations.

(** ** Arithmetic that fits does not panic. *)
Lemma arith_fits line lo hi wrap v s : lo <= v <= hi -> wrap v = v -> arith line lo hi wrap v s = (Ret v, s).
Proof. intros H E. unfold arith. replace (w_chk (wd s) && negb ((lo <=? v) && (v <=? hi))) with false by lia. now rewrite E. Qed.
Lemma ck_u32_fits line v s : 0 <= v < 4294967296 -> ck_u32 line v s = (Ret v, s).
Proof. intros H. apply arith_fits; [change (2 ^ 32 - 1) with 4294967295; lia|now apply u32_small]. Qed.
Lemma ck_i32_fits line v s : -2147483648 <= v < 2147483648 -> ck_i32 line v s = (Ret v, s).
Proof. intros H. apply arith_fits; [change (- 2 ^ 31) with (-2147483648); change (2 ^ 31 - 1) with 2147483647; lia|apply i32_range_small; lia]. Qed.

(** ** C39: the estimator *)
Lemma timeout_update_exact d s : 0 <= d <= 4294967 -> 0 <= s_rtt (sk s) <= 4294967 -> 0 <= s_rtt_variance (sk s) <= 4294967 ->
  update_congestion_timeout d s = (Ret tt, mkSt (rto_sk d (sk s)) (wd s)).
Proof.
  intros Hd Hr Hv. unfold update_congestion_timeout, bind, get_sk, upd_sk. sproj.
  rewrite (ck_i32_fits 733) by lia. rewrite (ck_i32_fits 734 (Z.abs _)) by lia. rewrite (ck_i32_fits 734 (Z.abs _ - _)) by lia.
  rewrite (ck_i32_fits 734 (s_rtt_variance (sk s) + _)) by lia. rewrite (ck_i32_fits 735 (d - _)) by lia. rewrite (ck_i32_fits 735 (s_rtt (sk s) + _)) by lia.
  rewrite (ck_i32_fits 737 (_ * 4)) by lia. rewrite (ck_i32_fits 737 (_ + _ * 4)) by lia.
  unfold rto_sk. cbv zeta. f_equal. f_equal.
  rewrite (i32_range_small (s_rtt (sk s) - d)) by lia. rewrite (i32_range_small (Z.abs _)) by lia.
  rewrite (i32_range_small (Z.abs _ - _)) by lia. rewrite (i32_range_small (d - _)) by lia.
  rewrite (i32_range_small (s_rtt_variance (sk s) + _)) by lia. rewrite (i32_range_small (s_rtt (sk s) + _)) by lia.
  rewrite (i32_range_small (_ * 4)) by lia. rewrite (i32_range_small (_ + _ * 4)) by lia. reflexivity.
Qed.
(** The sample passed to it is in range whatever the delays are. *)
Lemma sample_range d : 0 <= i32 (u32 d / 1000) <= 4294967.
Proof. pose proof (u32_range d) as H. change (2 ^ 32) with 4294967296 in H. rewrite i32_range_small; lia. Qed.

Lemma update_congestion_timeout_val d s : wp (update_congestion_timeout d) (fun o s' => match o with Ret _ => s' = mkSt (rto_sk d (sk s)) (wd s) | _ => True end) s.
Proof.
  unfold update_congestion_timeout. do 2 wstep.
  do 4 (wstep; wstep; [intros; exact I|intros _]). do 2 wstep. do 2 (wstep; wstep; [intros; exact I|intros _]). do 2 wstep.
  do 2 (wstep; wstep; [intros; exact I|intros _]). wstep. sproj. reflexivity.
Qed.

(** ** C38: the window after an acknowledgement *)
Lemma process_ack_cwnd i s s' : process_ack i s = (Ret tt, s') ->
  s_curr_window (sk s') = s_curr_window (sk s) /\ s_send_window (sk s') = s_send_window (sk s) /\
  (exists off bytes, s_cwnd (sk s') = Z.max (Z.min (grown_cwnd off bytes (s_cwnd (sk s))) (u32 (s_curr_window (sk s) + 1400))) 2800) /\
  (0 <= s_rtt (sk s) <= 4294967 -> 0 <= s_rtt_variance (sk s) <= 4294967 ->
   500 <= s_congestion_timeout (sk s') <= 60000 /\ 0 <= s_rtt (sk s') <= 4294967 /\ 0 <= s_rtt_variance (sk s') <= 4294967).
Proof.
  intros H. match goal with |- ?P => assert (HW : wp (process_ack i) (fun o s' => match o with Ret _ =>
    s_curr_window (sk s') = s_curr_window (sk s) /\ s_send_window (sk s') = s_send_window (sk s) /\
    (exists off bytes, s_cwnd (sk s') = Z.max (Z.min (grown_cwnd off bytes (s_cwnd (sk s))) (u32 (s_curr_window (sk s) + 1400))) 2800) /\
    (0 <= s_rtt (sk s) <= 4294967 -> 0 <= s_rtt_variance (sk s) <= 4294967 ->
    500 <= s_congestion_timeout (sk s') <= 60000 /\ 0 <= s_rtt (sk s') <= 4294967 /\ 0 <= s_rtt_variance (sk s') <= 4294967)
    | _ => True end) s); [|unfold wp in HW; rewrite H in HW; exact HW] end.
  clear H s'. unfold process_ack. do 2 wstep. cbv zeta. do 3 wstep. apply wp_unwrap; [|intros; exact I]. intros p Hp. cbv zeta. sproj_in Hp.
  unfold update_base_delay, update_current_delay. do 4 wstep. sproj. wstep.
  eapply wp_conseq; [apply (queuing_delay_keep)|]. intros [q|[]] t [-> HH]; cbv beta iota in HH |- *; try exact I.
  unfold update_congestion_window. do 3 wstep. cbv zeta. do 2 wstep. sproj. wstep; wstep; [intros; exact I|intros _]. wstep. sproj.
  wstep. eapply wp_conseq; [apply (queuing_delay_keep)|]. intros [q'|[]] t [-> HH2]; cbv beta iota in HH2 |- *; try exact I.
  wstep; wstep; [intros; exact I|intros _].
  match goal with |- wp (update_congestion_timeout ?d) _ ?t => pose proof (update_congestion_timeout_val d t) as HV end.
  eapply wp_conseq; [apply HV|]. intros [[]|] t HT; [|exact I]. cbv beta iota in HT. rewrite HT. clear HV HT.
  unfold current_delay_socket. frame. frame. split; [reflexivity|]. split; [reflexivity|]. split.
  - do 2 eexists. reflexivity.
  - intros Hr Hv. match goal with |- context [rto_sk ?d ?k] => pose proof (rto_values d k (sample_range _)) as HR end.
    do 2 (sproj_in HR; autorewrite with frame in HR). sproj_in HR. specialize (HR Hr Hv). cbv zeta in HR. destruct HR as (_ & _ & -> & H1 & H2). split; [lia|]. auto.
Qed.

Lemma reachable_wins s : reachable s -> wins_ok (sk s).
Proof. intros H. apply (reachable_inv (fun _ => True)); auto. Qed.

(** ** C32, C33: forgetting acknowledged packets *)
Lemma packet_len_nonneg p : 0 <= packet_len p. Proof. unfold packet_len, zlen. lia. Qed.
Lemma sum_len_nonneg l : 0 <= sum_len l.
Proof. induction l as [|p l IH]; [change (sum_len []) with 0; lia|]. rewrite sum_len_cons. pose proof (packet_len_nonneg p). lia. Qed.
Lemma drop_acked_exact n : forall s, (n <= length (s_send_window (sk s)))%nat -> s_curr_window (sk s) = sum_len (s_send_window (sk s)) ->
  sum_len (s_send_window (sk s)) < 4294967296 -> (0 < n)%nat ->
  drop_acked n s = (Ret tt, mkSt (ss_curr_window (sum_len (skipn n (s_send_window (sk s)))) (ss_send_window (skipn n (s_send_window (sk s))) (sk s))) (wd s)).
Proof.
  induction n as [|n IH]; intros s HL HC HS HN; [lia|]. cbn [drop_acked]. unfold bind at 1, get_sk at 1.
  destruct (s_send_window (sk s)) as [|p rest] eqn:EW; [cbn in HL; lia|]. unfold bind at 1, upd_sk at 1. unfold bind at 1.
  rewrite sum_len_cons in *. pose proof (packet_len_nonneg p). pose proof (sum_len_nonneg rest).
  rewrite (u32_small (packet_len p)) by lia. rewrite ck_u32_fits by lia. unfold bind, upd_sk. sproj. cbn [length] in HL. cbn [skipn].
  replace (s_curr_window (sk s) - packet_len p) with (sum_len rest) by lia.
  destruct n as [|n]; [reflexivity|]. rewrite IH; sproj; [reflexivity|lia|reflexivity|lia|lia].
Qed.
Lemma advance_window_exact s : reachable s -> sum_len (s_send_window (sk s)) < 4294967296 ->
  advance_send_window s = (Ret tt, mkSt (let w := match position (fun p => seq_nr p =? s_last_acked (sk s)) (s_send_window (sk s)) with
    | Some pos => skipn (pos + 1) (s_send_window (sk s)) | None => s_send_window (sk s) end in ss_curr_window (sum_len w) (ss_send_window w (sk s))) (wd s)).
Proof.
  intros HR HS. pose proof (reachable_inflight s HR) as HI. unfold inflight in HI. pose proof (sum_len_nonneg (s_send_window (sk s))).
  rewrite u32_small in HI by lia. unfold advance_send_window, bind, get_sk. destruct (position _ _) as [pos|] eqn:EP.
  - rewrite drop_acked_exact; [reflexivity|apply position_lt in EP; lia|exact HI|exact HS|lia].
  - cbv zeta. rewrite <- HI. destruct s as [[] w]. reflexivity.
Qed.
(** [position]: the first match. *)
Lemma position_spec {A} (f : A -> bool) l : match position f l with
  | Some i => exists a x b, l = a ++ x :: b /\ length a = i /\ f x = true /\ Forall (fun y => f y = false) a
  | None => Forall (fun y => f y = false) l end.
Proof.
  induction l as [|x l IH]; [constructor|]. change (position f (x :: l)) with (if f x then Some O else option_map S (position f l)).
  destruct (f x) eqn:E.
  - exists [], x, l. cbn. repeat split; auto.
  - destruct (position f l) as [i|]; cbv [option_map]; [|constructor; auto].
    destruct IH as (a & y & b & -> & HL & Hy & HF). exists (x :: a), y, b. cbn. repeat split; auto.
Qed.

(** ** C41 *)
Lemma base_update d now k : (length (s_base_delays k) <= 10)%nat ->
  let k' := base_delay_socket d now k in
  (1 <= length (s_base_delays k') <= 10)%nat /\
  ((s_base_delays k = [] \/ 60000000 < ts_sub now (s_last_rollover k)) ->
     s_last_rollover k' = now /\ exists kept dropped, s_base_delays k = dropped ++ kept /\ s_base_delays k' = kept ++ [d] /\
     (length dropped = if (length (s_base_delays k) =? 10)%nat then 1 else 0)%nat) /\
  (forall old last, s_base_delays k = old ++ [last] -> ts_sub now (s_last_rollover k) <= 60000000 ->
     s_last_rollover k' = s_last_rollover k /\ s_base_delays k' = old ++ [Z.min last d]).
Proof.
  intros HL. cbv zeta. unfold base_delay_socket, MAX_BASE_DELAY_AGE, BASE_HISTORY. destruct (is_nil (s_base_delays k) || _) eqn:E.
  - cbv zeta. sproj. split; [|split].
    + rewrite app_length. cbn [length]. destruct (_ =? _)%nat eqn:E9; [rewrite skipn_length|]; lia.
    + intros _. split; [reflexivity|]. destruct (length (s_base_delays k) =? 10)%nat eqn:E10.
      * exists (skipn 1 (s_base_delays k)), (firstn 1 (s_base_delays k)). rewrite firstn_skipn, firstn_length. repeat split. lia.
      * exists (s_base_delays k), []. repeat split.
    + intros old last EB HM. rewrite EB in E. destruct old; cbn in E; lia.
  - apply orb_false_elim in E as [E1 E2]. assert (EB : s_base_delays k <> []) by (intros EB; rewrite EB in E1; discriminate). cbv zeta.
    destruct (exists_last (l := s_base_delays k)) as (old & last & EL); [exact EB|].
    assert (HI : (length (s_base_delays k) - 1)%nat = length old) by (rewrite EL, app_length; cbn; lia).
    assert (HN : nth (length old) (s_base_delays k) 0 = last) by (rewrite EL, app_nth2, Nat.sub_diag by lia; reflexivity).
    rewrite HI, HN. split; [|split].
    + assert (1 <= length (s_base_delays k))%nat by (destruct (s_base_delays k); [congruence|cbn; lia]). destruct (d <? last); sproj; rewrite ?list_set_length; lia.
    + intros [H|H]; [congruence|lia].
    + intros old' last' EL' _. rewrite EL in EL'. apply app_inj_tail in EL' as [-> ->]. destruct (d <? last') eqn:ED; sproj; (split; [reflexivity|]).
      * rewrite EL. replace (Z.min last' d) with d by lia. apply list_set_app.
      * rewrite EL. f_equal. f_equal. lia.
Qed.

(** ** C50 *)
Lemma run_op_steps o s v s' : reachable s -> run_op o s = (v, s') -> not_panic v -> osteps0 s s'.
Proof.
  intros HR H HN. assert (HO : opre G0 W0 s) by (apply opre0, reachable_wins, HR).
  pose proof (run_op_osteps G0 W0 G0_valid W0_ts W0_tsd o s (op_queue_ok_W0 _ _) HO) as HW. unfold wp in HW. rewrite H in HW. cbn [fst snd] in HW.
  destruct v as [v|[k|l| |]]; cbn in HW; auto; [apply HW|]. now destruct (HN l).
Qed.
Lemma osteps_transition s s' : osteps0 s s' -> clos_refl_trans _ transition (s_state (sk s)) (s_state (sk s')).
Proof.
  induction 1 as [s s' H|s|s s1 s2 _ IH1 _ IH2]; [|apply rt_refl|eapply rt_trans; eauto].
  apply ostep_transition in H as [->|H]; [apply rt_refl|now apply rt_step].
Qed.
Lemma transition_back x y : clos_refl_trans _ transition x y ->
  (y = New -> x = New) /\ (y = SynSent -> x = SynSent) /\ (y = Connected -> x = Connected \/ x = New \/ x = SynSent).
Proof.
  induction 1 as [x y H|x|x y z _ IH1 _ IH2].
  - destruct H; repeat split; intros; try discriminate; auto.
  - repeat split; auto.
  - destruct IH1 as (A1 & A2 & A3), IH2 as (B1 & B2 & B3). repeat split; auto. intros E. destruct (B3 E) as [H|[H|H]]; auto.
Qed.

(** ** C33: a State packet that reports no loss *)
Definition forget (a : Z) (w : list packet) : list packet :=
  match position (fun p => seq_nr p =? a) w with Some pos => skipn (pos + 1) w | None => w end.
Lemma advance_window_wp s : wp advance_send_window (fun o s' => match o with
    Ret _ => s_send_window (sk s') = forget (s_last_acked (sk s)) (s_send_window (sk s)) /\ wd s' = wd s /\ s_cwnd (sk s') = s_cwnd (sk s) /\ s_last_acked (sk s') = s_last_acked (sk s) | _ => True end) s.
Proof.
  unfold advance_send_window, forget. do 2 wstep. destruct (position _ _) as [pos|] eqn:EP.
  - eapply wp_conseq; [apply (drop_acked_spec G0 W0 G0_valid W0_ts W0_tsd); [apply position_lt in EP; lia|lia]|]. intros [[]|] s' H; [|exact I]. cbv beta iota in H. subst s'. sproj. auto.
  - wstep. auto.
Qed.
Lemma process_ack_frame i s : wp (process_ack i) (fun o s' => match o with Ret _ =>
  s_send_window (sk s') = s_send_window (sk s) /\ s_last_acked (sk s') = s_last_acked (sk s) /\ s_duplicate_ack_count (sk s') = s_duplicate_ack_count (sk s) /\
  s_curr_window (sk s') = s_curr_window (sk s) /\ s_remote_wnd_size (sk s') = s_remote_wnd_size (sk s) /\ s_connected_to (sk s') = s_connected_to (sk s) /\
  s_their_delay (sk s') = s_their_delay (sk s) /\ w_sent (wd s') = w_sent (wd s) /\ w_in (wd s') = w_in (wd s) | _ => True end) s.
Proof.
  unfold process_ack. do 2 wstep. cbv zeta. do 3 wstep. apply wp_unwrap; [|intros; exact I]. intros p Hp. cbv zeta. sproj_in Hp.
  unfold update_base_delay, update_current_delay. do 4 wstep. sproj. wstep.
  eapply wp_conseq; [apply (queuing_delay_keep)|]. intros [q|[]] t [-> HH]; cbv beta iota in HH |- *; try exact I.
  unfold update_congestion_window. do 3 wstep. cbv zeta. do 2 wstep. sproj. wstep; wstep; [intros; exact I|intros _]. wstep. sproj.
  wstep. eapply wp_conseq; [apply (queuing_delay_keep)|]. intros [q'|[]] t [-> HH2]; cbv beta iota in HH2 |- *; try exact I.
  wstep; wstep; [intros; exact I|intros _].
  match goal with |- wp (update_congestion_timeout ?d) _ ?t => pose proof (update_congestion_timeout_val d t) as HV end.
  eapply wp_conseq; [apply HV|]. intros [[]|] t HT; [|exact I]. cbv beta iota in HT. rewrite HT. clear HV HT.
  unfold current_delay_socket. do 3 frame. repeat split.
Qed.
Definition dup_after (a : Z) (k : socket) : Z := if a =? s_last_acked k then u32 (s_duplicate_ack_count k + 1) else 1.
Lemma note_ack_wp a s : wp (note_ack a) (fun o s' => match o with Ret _ =>
  s_send_window (sk s') = s_send_window (sk s) /\ s_last_acked (sk s') = a /\ s_duplicate_ack_count (sk s') = dup_after a (sk s) /\
  s_curr_window (sk s') = s_curr_window (sk s) /\ s_remote_wnd_size (sk s') = s_remote_wnd_size (sk s) /\ s_connected_to (sk s') = s_connected_to (sk s) /\
  s_their_delay (sk s') = s_their_delay (sk s) /\ w_sent (wd s') = w_sent (wd s) /\ w_in (wd s') = w_in (wd s) /\ s_cwnd (sk s') = s_cwnd (sk s) | _ => True end) s.
Proof.
  unfold note_ack, dup_after. do 2 wstep. destruct (a =? s_last_acked (sk s)) eqn:E.
  - wstep; wstep; [intros; exact I|intros _]. wstep. sproj. repeat split. lia.
  - do 4 wstep. wstep. sproj. repeat split.
Qed.
(** What precedes the loss handling. *)
Definition acked_start (p : packet) : M unit := note_ack (ack_nr p) ;;; s <- get_sk ;;
  match position (fun q => ack_nr p =? seq_nr q) (s_send_window s) with Some index => process_ack index | None => ret tt end.
Lemma acked_start_wp p s : wp (acked_start p) (fun o s' => match o with Ret _ =>
  s_send_window (sk s') = s_send_window (sk s) /\ s_last_acked (sk s') = ack_nr p /\ s_duplicate_ack_count (sk s') = dup_after (ack_nr p) (sk s) /\
  s_curr_window (sk s') = s_curr_window (sk s) /\ s_remote_wnd_size (sk s') = s_remote_wnd_size (sk s) /\ s_connected_to (sk s') = s_connected_to (sk s) /\
  s_their_delay (sk s') = s_their_delay (sk s) /\ w_sent (wd s') = w_sent (wd s) /\ w_in (wd s') = w_in (wd s) | _ => True end) s.
Proof.
  unfold acked_start. apply wp_bind. eapply wp_conseq; [apply note_ack_wp|]. intros [[]|] s1 H; [|exact I]. cbv beta iota in H. do 2 wstep.
  destruct H as (H1 & H2 & H3 & H4 & H5 & H6 & H7 & H8 & H9 & _). destruct (position _ _).
  - eapply wp_conseq; [apply process_ack_frame|]. intros [[]|] s2 H; [|exact I]. cbv beta iota in H. destruct H as (K1 & K2 & K3 & K4 & K5 & K6 & K7 & K8 & K9). repeat split; congruence.
  - wstep. repeat split; assumption.
Qed.
Lemma handle_state_split rec p s : handle_state_packet rec p s = (acked_start p ;;; s <- get_sk ;;
    let loss := negb (is_nil (s_send_window s)) && (s_duplicate_ack_count s =? 3) in
    exts <- unwrap 1079 (extensions p) ;;
    loss' <- process_extensions rec (ack_nr p) exts loss ;;
    finish_state_packet rec (ack_nr p) exts loss') s.
Proof.
  unfold handle_state_packet, acked_start, bind, get_sk. destruct (note_ack (ack_nr p) s) as [[[]|] s1]; [|reflexivity].
  destruct (position _ _); [|reflexivity]. reflexivity.
Qed.
Definition no_sack (exts : list extension) : Prop := Forall (fun e => is_sack (ext_ty e) = false) exts.
Lemma no_sack_pass rec a exts loss s : no_sack exts -> process_extensions rec a exts loss s = (Ret loss, s).
Proof. intros H. revert loss. induction H as [|e exts He _ IH]; intros loss; cbn [process_extensions]; [reflexivity|]. rewrite He. apply IH. Qed.
Lemma no_sack_existsb exts : no_sack exts -> existsb (fun e => is_sack (ext_ty e)) exts = false.
Proof. induction 1 as [|e exts He _ IH]; cbn; [reflexivity|]. now rewrite He. Qed.
Lemma plain_ack rec p exts s s' : extensions p = Some exts -> no_sack exts -> (s_send_window (sk s) = [] \/ dup_after (ack_nr p) (sk s) <> 3) ->
  handle_state_packet rec p s = (Ret tt, s') ->
  s_send_window (sk s') = forget (ack_nr p) (s_send_window (sk s)) /\ w_sent (wd s') = w_sent (wd s) /\ w_in (wd s') = w_in (wd s) /\
  s_last_acked (sk s') = ack_nr p.
Proof.
  intros HE HN HD H. rewrite handle_state_split in H. revert H.
  intros H. refine (wp_eq _ (fun o s' => o = Ret tt -> s_send_window (sk s') = forget (ack_nr p) (s_send_window (sk s)) /\ w_sent (wd s') = w_sent (wd s) /\ w_in (wd s') = w_in (wd s) /\
    s_last_acked (sk s') = ack_nr p) s _ _ H _ eq_refl). clear H s'.
  apply wp_bind. eapply wp_conseq; [apply acked_start_wp|]. intros [[]|] s1 H; [|discriminate]. cbv beta iota in H. destruct H as (H1 & H2 & H3 & H4 & H5 & H6 & H7 & H8 & H9).
  do 2 wstep. cbv zeta. rewrite H1, H3, HE. cbn [unwrap]. do 2 wstep. wstep. unfold wp at 1. rewrite no_sack_pass by exact HN. cbn [fst snd].
  assert (HL : negb (is_nil (s_send_window (sk s))) && (dup_after (ack_nr p) (sk s) =? 3) = false).
  { destruct HD as [->|HD]; [reflexivity|]. replace (_ =? 3) with false by lia. apply andb_false_r. }
  unfold finish_state_packet. do 2 wstep. rewrite H1, H3, HL. cbn [andb]. do 4 wstep.
  eapply wp_conseq; [apply advance_window_wp|]. intros [[]|] s2 H; [|discriminate]. cbv beta iota in H. intros _. destruct H as (K1 & K2 & K3 & K4).
  rewrite K1, K2, K4, H1, H2, H8, H9. auto.
Qed.
(** How the window of unacknowledged packets can change. *)
Inductive window_change (acked : Z -> Prop) : list packet -> list packet -> Prop :=
| wc_same w : window_change acked w w
| wc_stamp p rest t : window_change acked (p :: rest) (set_timestamp t p :: rest)       (* retransmission *)
| wc_push w p : window_change acked w (w ++ [p])                                         (* new packet *)
| wc_ack w1 p w2 : acked (seq_nr p) -> ~ In (seq_nr p) (map seq_nr w1) -> window_change acked (w1 ++ p :: w2) w2.
Definition state_ack (a : Z) : Prop := exists p, packet_try_from p = Some (Ok p) /\ get_type p = Some PState /\ ack_nr p = a.
Lemma ostep_window s s' : ostep0 s s' -> window_change state_ack (s_send_window (sk s)) (s_send_window (sk s')).
Proof.
  intros H; destruct H; sproj; try constructor. destruct H; try constructor. destruct H; sproj; frame; try constructor.
  - rewrite H. constructor.
  - pose proof (position_spec (seq_is (s_last_acked k)) (s_send_window k)) as HP. rewrite H in HP. destruct HP as (a & x & b & E & HL & Hx & HF).
    unfold seq_is in Hx, HF. assert (Ex : seq_nr x = s_last_acked k) by lia.
    rewrite E. replace (skipn (pos + 1) (a ++ x :: b)) with b.
    + constructor.
      * rewrite Ex. destruct H0 as (q & src & H1 & H2 & H3). now exists q.
      * rewrite Ex. intros HI. apply in_map_iff in HI as (y & Ey & Hy). rewrite Forall_forall in HF. specialize (HF y Hy). cbv beta in HF. lia.
    + subst pos. rewrite skipn_app. rewrite skipn_all2 by lia. replace (length a + 1 - length a)%nat with 1%nat by lia. reflexivity.
Qed.
Lemma reachable_stateful_cto s s' : ostep0 s s' -> ranges (sk s) ->
  s_congestion_timeout (sk s') = s_congestion_timeout (sk s) \/ s_congestion_timeout (sk s') = u64 (s_congestion_timeout (sk s) * 2) \/
  500 <= s_congestion_timeout (sk s') <= 60000.
Proof.
  intros H HR; destruct H; sproj; auto. destruct H; auto. destruct H; sproj; frame; auto.
  right; right. destruct HR. pose proof (rto_values d k H r_rtt r_var) as (_ & _ & E & _). cbv zeta in E. rewrite E. lia.
Qed.
Lemma osteps_map {B} (f : socket -> B) (R : B -> B -> Prop) : (forall s s', ostep0 s s' -> ranges (sk s) -> f (sk s') = f (sk s) \/ R (f (sk s)) (f (sk s'))) ->
  forall s s', osteps0 s s' -> ranges (sk s) -> clos_refl_trans _ R (f (sk s)) (f (sk s')).
Proof.
  intros HS s s' H. assert (HG : ranges (sk s) -> ranges (sk s') /\ clos_refl_trans _ R (f (sk s)) (f (sk s'))); [|intros; now apply HG].
  induction H as [s s' H|s|s s1 s2 _ IH1 _ IH2]; intros HR.
  - split; [eapply ostep_ranges; eauto|]. destruct (HS _ _ H HR) as [->|H']; [apply rt_refl|now apply rt_step].
  - split; [exact HR|apply rt_refl].
  - destruct (IH1 HR) as [R1 C1]. destruct (IH2 R1) as [R2 C2]. split; [exact R2|]. eapply rt_trans; eauto.
Qed.
Lemma run_op_window o s v s' : reachable s -> run_op o s = (v, s') -> not_panic v ->
  clos_refl_trans _ (window_change state_ack) (s_send_window (sk s)) (s_send_window (sk s')).
Proof.
  intros HR H HN. apply (osteps_map s_send_window (window_change state_ack)); [|eapply run_op_steps; eauto|now apply reachable_ranges].
  intros t t' HT _. right. now apply ostep_window.
Qed.
Lemma run_op_timeout o s v s' : reachable s -> run_op o s = (v, s') -> not_panic v ->
  clos_refl_trans _ (fun a b => b = (2 * a) mod 2 ^ 64 \/ 500 <= b <= 60000) (s_congestion_timeout (sk s)) (s_congestion_timeout (sk s')).
Proof.
  intros HR H HN. apply (osteps_map s_congestion_timeout (fun a b => b = (2 * a) mod 2 ^ 64 \/ 500 <= b <= 60000)); [|eapply run_op_steps; eauto|now apply reachable_ranges].
  intros t t' HT HRt. destruct (reachable_stateful_cto _ _ HT HRt) as [H1|[H1|H1]]; auto. right; left. rewrite H1, Z.mul_comm. reflexivity.
Qed.
Lemma position_app {A} (f : A -> bool) a x b : f x = true -> (forall y, In y a -> f y = false) -> position f (a ++ x :: b) = Some (length a).
Proof.
  intros Hx. induction a as [|y a IH]; intros HA.
  - change (position f ([] ++ x :: b)) with (if f x then Some O else option_map S (position f b)). now rewrite Hx.
  - change (position f ((y :: a) ++ x :: b)) with (if f y then Some O else option_map S (position f (a ++ x :: b))).
    rewrite (HA y) by now left. rewrite IH; [reflexivity|]. intros z Hz. apply HA. now right.
Qed.
Lemma skipn_past {A} (a : list A) x b : skipn (length a + 1) (a ++ x :: b) = b.
Proof. rewrite skipn_app, skipn_all2 by lia. replace (length a + 1 - length a)%nat with 1%nat by lia. reflexivity. Qed.
Notation transition_star := (clos_refl_trans _ transition).
