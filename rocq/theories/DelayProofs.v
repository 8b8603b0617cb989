(** While the 32-bit clock does not run backwards, every delay kept for the current window is at least one of the base delays, so that the queuing delay
    is never negative (C111): a rule for invariants that mention the time, and its use. *)
From Verif Require Export LostProofs NearestProofs FixedProofs.
From Coq Require Import Sorted.
Require Import ZifyBool ZifyNat ZifyN.
Local Open Scope Z_scope.
Ltac Zify.zify_post_hook ::= Z.div_mod_to_equations.

(** ** The invariant *)
Definition early (T : Z) (p : packet) : Prop := exists h pl, p = wire h [] pl /\ u32 (h_ts h) <= T.
(** The sample [(t, v)] is covered by the [j]-th youngest base delay. *)
Definition covered (base : list Z) (roll : Z) (x : Z * Z) : Prop :=
  exists j b, nth_error (rev base) j = Some b /\ b <= snd x /\ (j <> O -> (Z.of_nat j - 1) * 60000000 <= roll - fst x).
Definition timely (T : Z) (x : Z * Z) : Prop := 0 <= fst x <= T /\ 0 <= snd x < 2 ^ 32.
Definition older (x y : Z * Z) : Prop := fst x <= fst y.
Record JK (T : Z) (k : socket) : Prop := {
  jk_win : Forall (early T) (s_send_window k);
  jk_unsent : Forall (early T) (s_unsent_queue k);
  jk_rtt : 0 <= s_rtt k <= 4294967;
  jk_roll : s_last_rollover k <= T;
  jk_base : Forall (fun b => 0 <= b < 2 ^ 32) (s_base_delays k);
  jk_len : (length (s_base_delays k) <= 10)%nat;
  jk_sorted : StronglySorted older (s_current_delays k);
  jk_timely : Forall (timely T) (s_current_delays k);
  jk_cov : Forall (covered (s_base_delays k) (s_last_rollover k)) (s_current_delays k);
  jk_none : s_current_delays k = [] -> s_base_delays k = []
}.
Lemma early_mono T T' p : T <= T' -> early T p -> early T' p. Proof. intros H (h & pl & -> & H1). exists h, pl. split; [reflexivity|lia]. Qed.
Lemma jk_mono T T' k : T <= T' -> JK T k -> JK T' k.
Proof.
  intros H [H1 H2 H3 H4 H5 H6 H7 H8 H9 H10]. constructor; auto; try lia.
  - eapply Forall_impl; [|exact H1]. intros p. now apply early_mono.
  - eapply Forall_impl; [|exact H2]. intros p. now apply early_mono.
  - eapply Forall_impl; [|exact H8]. unfold timely. intros x [? ?]. split; [lia|assumption].
Qed.
Lemma jk_eq T k k' : s_send_window k' = s_send_window k -> s_unsent_queue k' = s_unsent_queue k -> s_rtt k' = s_rtt k -> s_last_rollover k' = s_last_rollover k ->
  s_base_delays k' = s_base_delays k -> s_current_delays k' = s_current_delays k -> JK T k -> JK T k'.
Proof. intros H1 H2 H3 H4 H5 H6 []. constructor; rewrite ?H1, ?H2, ?H3, ?H4, ?H5, ?H6; auto. Qed.
Lemma jk_fresh T ids a : 0 <= T -> JK T (fresh_socket ids a).
Proof. intros H. constructor; cbn; auto; try lia; constructor. Qed.

(** ** One sample *)
Lemma drop_old_in now lim l x : In x (drop_old now lim l) -> In x l.
Proof. induction l as [|[t d] l IH]; cbn [drop_old]; [tauto|]. destruct (_ <? _); [intros H; right; auto|tauto]. Qed.
Lemma drop_old_sorted now lim l : StronglySorted older l -> StronglySorted older (drop_old now lim l) /\ Forall (fun x => now - fst x <= lim) (drop_old now lim l).
Proof.
  induction 1 as [|[t d] l HS IH HF]; cbn [drop_old]; [split; constructor|]. unfold ts_sub. destruct (Z.ltb_spec lim (now - t)); [exact IH|]. split; [now constructor|]. constructor; [cbn; lia|].
  eapply Forall_impl; [|exact HF]. unfold older. cbn [fst]. intros x. lia.
Qed.
Lemma sorted_snoc l x : StronglySorted older l -> Forall (fun y => older y x) l -> StronglySorted older (l ++ [x]).
Proof.
  induction 1 as [|y l HS IH HF]; intros H; cbn [app]; [repeat constructor|]. inversion H; subst. constructor; [auto|]. apply Forall_app. split; [exact HF|]. repeat constructor. assumption.
Qed.
Lemma rev_tl {A} (l : list A) j : (S j < length l)%nat -> nth_error (rev (skipn 1 l)) j = nth_error (rev l) j.
Proof.
  intros H. destruct l as [|x l]; [cbn in H; lia|]. cbn [skipn rev length] in *. symmetry. apply nth_error_app1. rewrite rev_length. lia.
Qed.
Lemma set_last {A} (x y : A) l : list_set (length (l ++ [x]) - 1) y (l ++ [x]) = l ++ [y].
Proof.
  replace (length (l ++ [x]) - 1)%nat with (length l) by (rewrite app_length; cbn; lia). induction l as [|z l IH]; cbn; [reflexivity|]. now rewrite IH.
Qed.
Lemma jk_sample now ts k : JK now k -> 0 <= ts <= now -> now < 2 ^ 32 -> JK now (current_delay_socket (now - ts) now (base_delay_socket (now - ts) now k)).
Proof.
  intros [H1 H2 H3 H4 H5 H6 H7 H8 H9 H10] Hts Hnow. set (d := now - ts).
  assert (HB : exists base roll, base_delay_socket d now k = ss_base_delays base (ss_last_rollover roll k) /\ roll <= now /\ Forall (fun b => 0 <= b < 2 ^ 32) base /\ (length base <= 10)%nat /\
    (exists b, nth_error (rev base) 0 = Some b /\ b <= d) /\ forall x, timely now x -> now - fst x <= s_rtt k * 100 -> covered (s_base_delays k) (s_last_rollover k) x -> covered base roll x).
  { unfold base_delay_socket, ts_sub. change MAX_BASE_DELAY_AGE with 60000000. change BASE_HISTORY with 10%nat. destruct (_ || _) eqn:ER.
    - set (kept := if (length (s_base_delays k) =? 10)%nat then skipn 1 (s_base_delays k) else s_base_delays k). cbv zeta. exists (kept ++ [d]), now. split; [reflexivity|]. split; [lia|].
      assert (HK : Forall (fun b => 0 <= b < 2 ^ 32) kept /\ (length kept <= 9)%nat).
      { unfold kept. destruct (Nat.eqb_spec (length (s_base_delays k)) 10) as [E|E].
        - split; [rewrite <- (firstn_skipn 1) in H5; apply Forall_app in H5; tauto|rewrite skipn_length; lia].
        - split; [exact H5|lia]. }
      split; [apply Forall_app; split; [tauto|repeat constructor; unfold d; lia]|]. split; [rewrite app_length; cbn; lia|]. rewrite rev_unit. split; [exists d; split; [reflexivity|lia]|].
      intros x HT HL (j & b & Hj & Hb & Hr). exists (S j), b. destruct HT as [HT1 HT2].
      assert (HN : (j < length (s_base_delays k))%nat) by (rewrite <- rev_length; apply nth_error_Some; congruence).
      assert (Hroll : 60000000 < now - s_last_rollover k). { destruct (s_base_delays k); [cbn in HN; lia|]. cbn [is_nil orb] in ER. lia. }
      assert (HR : Z.of_nat j * 60000000 <= now - fst x). { destruct (Nat.eq_dec j 0) as [->|HJ]; [lia|]. specialize (Hr HJ). lia. }
      split; [|split; [exact Hb|intros _; lia]]. rewrite rev_unit. cbn [nth_error]. unfold kept. destruct (Nat.eqb_spec (length (s_base_delays k)) 10) as [E|E]; [|exact Hj].
      rewrite rev_tl; [exact Hj|]. destruct (Nat.eq_dec j 9) as [->|HJ]; [exfalso; lia|lia].
    - apply orb_false_iff in ER. destruct ER as [EN _]. destruct (s_base_delays k) as [|b0 r] eqn:EB using rev_ind; [discriminate|clear IHr]. cbv zeta.
      rewrite set_last. replace (length (r ++ [b0]) - 1)%nat with (length r) by (rewrite app_length; cbn; lia). rewrite app_nth2, Nat.sub_diag by lia. cbn [nth].
      destruct (Z.ltb_spec d b0) as [HL|HL].
      + exists (r ++ [d]), (s_last_rollover k). split; [now destruct k|]. split; [exact H4|]. apply Forall_app in H5. destruct H5 as [H5 H5']. rewrite app_length in *. cbn [length] in *.
        split; [apply Forall_app; split; [exact H5|repeat constructor; unfold d; lia]|]. split; [lia|]. rewrite rev_unit. split; [exists d; split; [reflexivity|lia]|].
        intros x _ _ (j & b & Hj & Hb & Hr). rewrite rev_unit in Hj. destruct j as [|j].
        * injection Hj as <-. exists 0%nat, d. rewrite rev_unit. split; [reflexivity|]. split; [lia|congruence].
        * exists (S j), b. rewrite rev_unit. auto.
      + exists (r ++ [b0]), (s_last_rollover k). split; [rewrite <- EB; now destruct k|]. split; [exact H4|]. split; [exact H5|]. split; [exact H6|]. rewrite rev_unit. split; [exists b0; split; [reflexivity|lia]|auto]. }
  destruct HB as (base & roll & -> & B1 & B2 & B3 & (b0 & B4 & B5) & B6). unfold current_delay_socket. sproj.
  destruct (drop_old_sorted now (s_rtt k * 100) _ H7) as [S1 S2].
  assert (S3 : Forall (timely now) (drop_old now (s_rtt k * 100) (s_current_delays k))) by (apply Forall_forall; intros x Hx; apply drop_old_in in Hx; rewrite Forall_forall in H8; auto).
  constructor; sproj; auto.
  - apply sorted_snoc; [exact S1|]. eapply Forall_impl; [|exact S3]. unfold timely, older. cbn [fst]. lia.
  - apply Forall_app. split; [exact S3|]. repeat constructor; cbn; unfold d; lia.
  - apply Forall_app. split.
    + apply Forall_forall. intros x Hx. pose proof (drop_old_in _ _ _ _ Hx) as Hin. rewrite Forall_forall in S2, S3, H9. auto.
    + repeat constructor. exists 0%nat, b0. split; [exact B4|]. split; [exact B5|congruence].
  - intros E. apply app_eq_nil in E. destruct E; discriminate.
Qed.
Lemma fold_min_le l : forall a, fold_left Z.min l a <= a /\ (forall x, In x l -> fold_left Z.min l a <= x) /\ (fold_left Z.min l a = a \/ In (fold_left Z.min l a) l).
Proof.
  induction l as [|x l IH]; intros a; cbn [fold_left]; [split; [lia|]; split; [intros ? []|auto]|]. destruct (IH (Z.min a x)) as (I1 & I2 & I3). split; [lia|]. split.
  - intros y [->|Hy]; [lia|auto].
  - destruct I3 as [I3|I3]; [|right; now right]. destruct (Z.min_spec a x) as [[_ E]|[_ E]]; rewrite E in I3 at 2; [now left|right; left; congruence].
Qed.
(** The conclusion: between zero and the largest current delay. *)
Lemma jk_queuing T k : JK T k -> 0 <= filtered_current_delay k - min_base_delay k < 2 ^ 32.
Proof.
  intros [H1 H2 H3 H4 H5 H6 H7 H8 H9 H10]. unfold filtered_current_delay, min_base_delay. destruct (s_current_delays k) as [|x l] eqn:EC.
  { rewrite (H10 eq_refl). split; [vm_compute; discriminate|reflexivity]. }
  rewrite <- EC in *. assert (HN : map snd (s_current_delays k) <> []) by (rewrite EC; discriminate).
  set (m := match s_base_delays k with [] => 0 | d :: rest => fold_left Z.min rest d end).
  assert (HM : 0 <= m < 2 ^ 32 /\ forall b, In b (s_base_delays k) -> m <= b).
  { unfold m. destruct (s_base_delays k) as [|d r]; [split; [split; [lia|reflexivity]|intros ? []]|]. destruct (fold_min_le r d) as (I1 & I2 & I3). rewrite Forall_forall in H5. split.
    - apply H5. destruct I3 as [->|I3]; [now left|now right].
    - intros b [->|Hb]; auto. }
  destruct HM as [M1 M2].
  assert (HF : Forall (fun d => m <= d <= 2 ^ 32 - 1) (map snd (s_current_delays k))).
  { apply Forall_forall. intros v Hv. apply in_map_iff in Hv. destruct Hv as (y & <- & Hy). rewrite Forall_forall in H8, H9. destruct (H8 y Hy) as [_ HT]. destruct (H9 y Hy) as (j & b & Hj & Hb & _).
    apply nth_error_In, in_rev in Hj. specialize (M2 b Hj). lia. }
  pose proof (ewma_range m (2 ^ 32 - 1) _ ltac:(lia) ltac:(lia) HN HF). lia.
Qed.

(** ** Histories *)
Section Delay.
  Variable clk : nat -> Z.
  Definition rd (i : nat) : Z := micros_of_clock (clk i).
  (** Only the readings up to number [N] are known not to run backwards. *)
  Variable N : nat.
  Hypothesis mono : forall i j, (i <= j)%nat -> (j <= N)%nat -> rd i <= rd j.
  Notation tick s := (w_tick (wd s)).
  (** The next reading of the clock, or reading [N] if that has been made. *)
  Definition TT (s : st) : Z := rd (Nat.min (tick s) N).
  Definition over (s : st) : Prop := (S N < tick s)%nat.
  Definition JS (s : st) : Prop := w_clock (wd s) = clk /\ JK (TT s) (sk s).
  Definition jpost {A} (T0 : Z) (V : A -> Z -> Prop) (o : outcome A) (s : st) : Prop :=
    match o with Fail (Panic _) => True | Fail _ => JS s /\ T0 <= TT s | Ret a => JS s /\ T0 <= TT s /\ V a (TT s) end.
  Definition jp {A} (T0 : Z) (m : M A) (V : A -> Z -> Prop) : Prop :=
    forall s, JS s -> T0 <= TT s -> wp m (fun o s' => over s' \/ jpost (TT s) V o s') s.
  Definition anyT {A} (_ : A) (_ : Z) : Prop := True.
  Lemma tt_range s : 0 <= TT s < 2 ^ 32. Proof. unfold TT, rd. apply micros_range. Qed.

  Lemma jp_weak {A} T0 T1 (m : M A) V : T0 <= T1 -> jp T0 m V -> jp T1 m V. Proof. intros H1 H2 s HS HT. apply H2; [exact HS|lia]. Qed.
  Lemma jpost_weak {A} T0 T1 V (o : outcome A) s : T0 <= T1 -> jpost T1 V o s -> jpost T0 V o s.
  Proof. intros H. destruct o as [a|[]]; cbn [jpost]; auto; intuition lia. Qed.
  Lemma jp_any {A} T0 (m : M A) V : jp T0 m V -> jp T0 m anyT.
  Proof. intros H s HS HT. eapply wp_conseq; [apply H; assumption|]. intros o t [HO|HO]; [now left|right]. revert HO. destruct o as [a|[]]; cbn [jpost]; unfold anyT; tauto. Qed.
  Lemma over_env {A} (m : M A) s Q : envfix m -> over s -> wp m (fun o s' => over s' \/ Q o s') s.
  Proof. intros H HO. unfold wp. left. specialize (H s). destruct H as (_ & _ & _ & _ & H). unfold over in *. lia. Qed.
  Lemma jp_bind {A B} T0 (m : M A) (f : A -> M B) V V' : (forall a, envfix (f a)) -> jp T0 m V -> (forall a T1, T0 <= T1 -> V a T1 -> jp T1 (f a) V') -> jp T0 (bind m f) V'.
  Proof.
    intros HF H1 H2 s HS HT. apply wp_bind. eapply wp_conseq; [apply H1; assumption|]. intros [a|e] t.
    - intros [HO|(HS' & HT' & HV)]; [now apply over_env|]. eapply wp_conseq; [apply (H2 a (TT t)); [lia|exact HV|exact HS'|lia]|]. intros o u [HO|HO]; [now left|right]. eapply jpost_weak; [exact HT'|exact HO].
    - intros [HO|HO]; [now left|right]. destruct e; exact HO.
  Qed.
  Lemma jp_bind_any {A B} T0 (m : M A) (f : A -> M B) V' : (forall a, envfix (f a)) -> jp T0 m anyT -> (forall a, jp T0 (f a) V') -> jp T0 (bind m f) V'.
  Proof. intros HF H1 H2. apply (jp_bind T0 m f anyT); [exact HF|exact H1|]. intros a T1 HT _. now apply (jp_weak T0). Qed.
  Lemma jp_get {B} T0 (f : socket -> M B) V : (forall k T1, T0 <= T1 -> JK T1 k -> jp T1 (f k) V) -> jp T0 (s <- get_sk ;; f s) V.
  Proof. intros H s HS HT. do 2 wstep. apply (H (sk s) (TT s)); [exact HT|apply HS|exact HS|lia]. Qed.
  Lemma jp_ret {A} T0 (a : A) (V : A -> Z -> Prop) : (forall T, T0 <= T -> V a T) -> jp T0 (ret a) V.
  Proof. intros HV s HS HT. wstep. right. split; [exact HS|]. split; [lia|auto]. Qed.
  Lemma jp_fail {A} T0 f V : jp T0 (@fail A f) V. Proof. intros s HS HT. wstep. right. destruct f; cbn [jpost]; auto; split; auto; lia. Qed.
  Lemma jp_throw {A} T0 k V : jp T0 (@throw A k) V. Proof. intros s HS HT. wstep. right. split; [exact HS|lia]. Qed.
  Lemma jp_event T0 : jp T0 event_fuel anyT. Proof. intros s HS HT. wstep. right. split; [exact HS|]. split; [lia|exact I]. Qed.
  Lemma tick_now s : JS s -> over (ticked s) \/ clock_now s = TT s /\ JS (ticked s) /\ TT s <= TT (ticked s).
  Proof.
    intros [H1 H2]. destruct (Nat.le_gt_cases (tick s) N) as [HN|HN]; [right|left; unfold over, ticked; cbn; lia].
    assert (HT : TT s <= TT (ticked s)). { unfold TT, ticked. sproj. apply mono; lia. }
    split; [unfold clock_now, TT, rd; rewrite H1, Nat.min_l by exact HN; reflexivity|]. split; [|exact HT]. split; [exact H1|]. eapply jk_mono; [exact HT|exact H2].
  Qed.
  Lemma jp_now T0 : jp T0 now_microseconds (fun v T => T0 <= v <= T /\ 0 <= v < 2 ^ 32).
  Proof.
    intros s HS HT. wstep. destruct (tick_now s HS) as [HO|(HC & H1 & H2)]; [now left|right]. split; [exact H1|]. split; [exact H2|]. rewrite HC. pose proof (tt_range s). lia.
  Qed.
  Lemma jp_upd T0 f : (forall k T, T0 <= T -> 0 <= T -> JK T k -> JK T (f k)) -> jp T0 (upd_sk f) anyT.
  Proof. intros H s [H1 H2] HT. wstep. right. split; [split; [exact H1|apply H; [exact HT|apply tt_range|exact H2]]|]. split; [apply Z.le_refl|exact I]. Qed.
  Lemma jp_rand T0 : jp T0 random_u16 anyT.
  Proof. intros s HS HT. apply wp_rand. intros v _. right. split; [exact HS|]. split; [apply Z.le_refl|exact I]. Qed.
  Lemma jp_arith T0 l lo hi wr v : jp T0 (arith l lo hi wr v) (fun x _ => x = wr v).
  Proof. intros s HS HT. unfold wp, arith. right. destruct (_ && _) eqn:E; cbn [fst snd jpost]; auto. split; [exact HS|split; [lia|reflexivity]]. Qed.
  Lemma jp_ck T0 l lo hi wr v : jp T0 (arith l lo hi wr v) anyT. Proof. eapply jp_any, jp_arith. Qed.
  Lemma jp_try {A} T0 (r : result A kind) : jp T0 (try_ r) anyT. Proof. destruct r; [apply jp_ret; intros; exact I|apply jp_throw]. Qed.
  Lemma jp_unwrap {A} T0 l (o : option A) : jp T0 (unwrap l o) (fun a _ => o = Some a).
  Proof. destruct o as [a|]; [apply jp_ret; auto|apply jp_fail]. Qed.
  Lemma jp_unwrap_any {A} T0 l (o : option A) : jp T0 (unwrap l o) anyT. Proof. eapply jp_any, jp_unwrap. Qed.
  Lemma jp_send T0 d p : jp T0 (udp_send d p) anyT.
  Proof.
    intros s HS HT. assert (HS' : JS (tx_state d p s) /\ TT s <= TT (tx_state d p s)).
    { unfold JS, TT, tx_state in *. destruct (tx_ok s); sproj; (split; [exact HS|lia]). }
    apply wp_udp_send; intros; right; cbn [jpost]; unfold anyT; tauto.
  Qed.
  Lemma jp_ignore {A} T0 (m : M A) V : jp T0 m V -> jp T0 (ignore_result m) anyT.
  Proof. intros H s HS HT. specialize (H s HS HT). unfold wp, ignore_result in *. destruct (m s) as [[a|[k|l| |]] s']; cbn in *; unfold anyT; tauto. Qed.
  Lemma jp_loop {S A} T0 f (body : S -> M (S + A)) (x : S) : (forall x, envfix (body x)) -> (forall x, jp T0 (body x) anyT) -> jp T0 (loop f body x) anyT.
  Proof.
    intros HE H. revert x. induction f as [|f IH]; intros x; cbn [loop]; [apply jp_fail|]. apply jp_bind_any; [|apply H|].
    - intros [y|a]; [apply envfix_loop, HE|apply envfix_ret].
    - intros [y|a]; [apply IH|apply jp_ret; intros; exact I].
  Qed.
  Lemma jp_rx T0 n : jp T0 (udp_recv n) anyT.
  Proof.
    intros s HS HT. assert (HS' : JS (rx_state s) /\ TT s <= TT (rx_state s)) by (unfold JS, TT, rx_state in *; sproj; split; [exact HS|lia]).
    apply wp_udp_recv; intros; right; cbn [jpost]; (split; [first [exact HS | apply HS']|]); try (split; [|exact I]); first [apply HS' | lia].
  Qed.
  Ltac jsame := intros; solve [assumption | eapply jk_eq; [..|eassumption]; reflexivity].
  Lemma envfix_rto d : envfix (update_congestion_timeout d). Proof. unfold update_congestion_timeout. envfix. Qed.
  Lemma envfix_insert p : envfix (insert_into_buffer p). Proof. unfold insert_into_buffer. envfix. Qed.
  Lemma envfix_fast : envfix fast_resend_packet. Proof. unfold fast_resend_packet. envfix. Qed.
  Ltac env := intros; envfix; eauto 6 using envfix_insert, envfix_rto, envfix_fast, envfix_reply, envfix_attach, envfix_flush_in, envfix_process_ack, envfix_drop, envfix_advance, envfix_send_packet, envfix_resend, envfix_gaps, envfix_exts, envfix_note,
    envfix_finish, envfix_state, envfix_dispatch, envfix_handle, envfix_process, envfix_fin, envfix_timeout, envfix_wait, envfix_recv_fuel, envfix_call, envfix_flush, envfix_send_call, envfix_syn_loop.
  Ltac jp := repeat (cbv beta zeta; match goal with
    | |- jp _ (bind get_sk _) _ => apply jp_get; intros
    | |- jp _ (bind _ _) _ => apply jp_bind_any; [solve [env]| |intros]
    | |- jp _ (loop _ _ _) anyT => apply jp_loop; [solve [env]|intros]
    | |- jp _ (ret _) anyT => apply jp_ret; intros; exact I
    | |- jp _ (fail _) _ => apply jp_fail
    | |- jp _ event_fuel _ => apply jp_event
    | |- jp _ (upd_sk _) anyT => apply jp_upd; try solve [jsame]
    | |- jp _ now_microseconds anyT => eapply jp_any, jp_now
    | |- jp _ random_u16 anyT => apply jp_rand
    | |- jp _ (throw _) _ => apply jp_throw
    | |- jp _ (throw_se _) _ => apply jp_throw
    | |- jp _ (try_ _) anyT => apply jp_try
    | |- jp _ (unwrap _ _) anyT => apply jp_unwrap_any
    | |- jp _ (m_get_type _) anyT => apply jp_unwrap_any
    | |- jp _ (udp_send _ _) anyT => apply jp_send
    | |- jp _ (udp_recv _) anyT => apply jp_rx
    | |- jp _ (ignore_result _) anyT => eapply jp_ignore
    | |- jp _ (ck_u16 _ _) anyT => apply jp_ck
    | |- jp _ (ck_u32 _ _) anyT => apply jp_ck
    | |- jp _ (ck_u64 _ _) anyT => apply jp_ck
    | |- jp _ (ck_i32 _ _) anyT => apply jp_ck
    | |- jp _ (ck_i64 _ _) anyT => apply jp_ck
    | |- jp _ (if ?b then _ else _) _ => destruct b eqn:?
    | |- jp _ (match ?x with _ => _ end) _ => destruct x eqn:?
    end); auto.

  Lemma jp_reply T0 p t : jp T0 (prepare_reply p t) anyT. Proof. unfold prepare_reply. jp. Qed.
  Lemma jp_attach T0 p r : jp T0 (attach_sack p r) anyT. Proof. unfold attach_sack, build_selective_ack. jp. Qed.
  Lemma jk_advance T k : JK T k -> JK T (advance_socket k). Proof. unfold advance_socket. destruct (s_incoming_buffer k); jsame. Qed.
  Lemma jp_flush_in T0 n : jp T0 (flush_incoming_buffer n) anyT.
  Proof. unfold flush_incoming_buffer, advance_incoming_buffer. jp; intros; apply jk_advance; jsame. Qed.
  Lemma jp_rto T0 d : 0 <= d <= 4294967 -> jp T0 (update_congestion_timeout d) anyT.
  Proof.
    intros Hd. unfold update_congestion_timeout. apply jp_get. intros k T1 HT1 HK. pose proof (jk_rtt _ _ HK) as HR.
    do 4 (apply jp_bind_any; [env|jp|intros]). apply jp_bind_any; [env|jp|intros _].
    eapply jp_bind; [env|apply jp_arith|]. intros c T2 HT2 Hc. eapply jp_bind; [env|apply jp_arith|]. intros rtt T3 HT3 Hr. cbv beta in Hc, Hr.
    assert (Hc' : c = d - s_rtt k). { subst c. apply i32_range_small. lia. }
    assert (Hq : - s_rtt k <= Z.quot c 8 <= d - s_rtt k \/ 0 <= Z.quot c 8 <= d - s_rtt k \/ - s_rtt k <= Z.quot c 8 <= 0).
    { rewrite Hc'. clear - HR Hd. destruct (Z.leb_spec 0 (d - s_rtt k)) as [H|H].
      - right; left. rewrite Z.quot_div_nonneg by lia. lia.
      - right; right. replace (d - s_rtt k) with (- (s_rtt k - d)) by lia. rewrite Z.quot_opp_l by lia. rewrite Z.quot_div_nonneg by lia. lia. }
    assert (HR' : 0 <= rtt <= 4294967). { assert (0 <= s_rtt k + Z.quot c 8 <= 4294967) by lia. subst rtt. rewrite i32_range_small by lia. lia. }
    apply jp_bind_any; [env| |intros _; jp]. apply jp_upd. intros k' T _ _ []. constructor; sproj; auto.
  Qed.
  Lemma jp_process_ack T0 i : jp T0 (process_ack i) anyT.
  Proof.
    unfold process_ack. apply jp_get. intros k T1 HT1 HK. cbv zeta. intros s HS HT. apply wp_bind. wstep. unfold unwrap.
    destruct (tick_now s HS) as [HO|(HC & J1 & J2)].
    { apply over_env; [|exact HO]. unfold update_base_delay, update_current_delay, update_congestion_window, update_congestion_timeout, queuing_delay. env. }
    apply wp_bind. destruct (nth_error (s_send_window k) i) as [p|] eqn:EN; [|wstep; now right]. wstep.
    unfold update_base_delay, update_current_delay. do 4 wstep.
    assert (HP : 0 <= timestamp p <= TT s).
    { pose proof (jk_win _ _ HK) as HW. rewrite Forall_forall in HW. destruct (HW p (nth_error_In _ _ EN)) as (h & pl & -> & Hh). rewrite ts_wire. pose proof (u32_range (h_ts h)). lia. }
    destruct HS as [HS1 HS2].
    set (s1 := mkSt (current_delay_socket (ts_sub (clock_now s) (timestamp p)) (clock_now s) (base_delay_socket (ts_sub (clock_now s) (timestamp p)) (clock_now s) (sk s))) (wd (ticked s))).
    assert (HS' : JS s1).
    { split; [exact HS1|]. change (TT s1) with (TT (ticked s)). eapply jk_mono; [exact J2|]. unfold s1. cbn [sk]. rewrite HC. apply jk_sample; [exact HS2|exact HP|]. apply tt_range. }
    match goal with |- wp ?m _ _ => assert (HM : jp (TT s1) m anyT) end.
    { unfold queuing_delay, update_congestion_window. do 3 (apply jp_bind_any; [env|jp|intros]). apply jp_bind_any; [env|jp|intros]. 
      apply jp_rto. pose proof (u32_range a2) as HU. rewrite i32_range_small; lia. }
    eapply wp_conseq; [apply (HM s1 HS'); apply Z.le_refl|]. intros o u [HO|HO]; [now left|right]. eapply jpost_weak; [exact J2|exact HO].
  Qed.

  Lemma early_ts T t p : 0 <= t <= T -> t < 2 ^ 32 -> early T p -> early T (set_timestamp t p).
  Proof. intros H1 H2 (h & pl & -> & H). rewrite set_ts_wire. eexists _, pl. split; [reflexivity|]. cbn [h_ts]. unfold u32, wrap. rewrite ?Z.mod_mod, Z.mod_small by lia. lia. Qed.
  Lemma early_tsd T t p : early T p -> early T (set_timestamp_difference t p).
  Proof. intros (h & pl & -> & H). rewrite set_tsd_wire. eexists _, pl. split; [reflexivity|exact H]. Qed.
  Lemma jk_window T w k : Forall (early T) w -> JK T k -> JK T (ss_send_window w k). Proof. intros H []. constructor; sproj; auto. Qed.
  Lemma jp_drop T0 n : jp T0 (drop_acked n) anyT.
  Proof.
    revert T0. induction n as [|n IH]; intros T0; cbn [drop_acked]; jp. intros k' T HT _ HK'. apply jk_window; [|exact HK']. pose proof (jk_win _ _ H0) as HW. rewrite Heql in HW. inversion HW; subst.
    eapply Forall_impl; [|eassumption]. intros q. now apply early_mono.
  Qed.
  Lemma jp_advance T0 : jp T0 advance_send_window anyT. Proof. unfold advance_send_window. jp. apply jp_drop. Qed.
  Lemma jp_fin T0 : jp T0 send_fin anyT. Proof. unfold send_fin. jp. Qed.
  Lemma jp_fast T0 : jp T0 fast_resend_packet anyT. Proof. unfold fast_resend_packet. jp. Qed.
  Lemma jp_timeout T0 : jp T0 handle_receive_timeout anyT.
  Proof.
    unfold handle_receive_timeout, send_fast_resend_request. apply jp_get. intros k0 T1 _ _. do 2 (apply jp_bind_any; [env|jp|intros]). apply jp_get. intros k T2 HT2 HK.
    destruct (s_send_window k) as [|p rest] eqn:EW; [jp; auto using jp_fin, jp_fast|].
    eapply jp_bind; [env|apply jp_now|]. intros t T3 HT3 [Ht1 Ht2]. cbv beta zeta. apply jp_bind_any; [env| |intros; jp].
    apply jp_upd. intros k' T HT _ HK'. pose proof (jk_win _ _ HK) as HW. rewrite EW in HW. inversion HW; subst. apply jk_window; [|exact HK']. constructor.
    - apply early_ts; [lia|lia|]. eapply early_mono; [|eassumption]. lia.
    - eapply Forall_impl; [|eassumption]. intros q. apply early_mono. lia.
  Qed.
  Lemma jp_wait T0 : jp T0 wait_datagram anyT. Proof. unfold wait_datagram. jp. apply jp_timeout. Qed.

  Section Rec.
    Variable rec : nat -> M (list byte * addr).
    Hypothesis Hrec : forall T0 n, jp T0 (rec n) anyT.
    Hypothesis Henv : forall n, envfix (rec n).
    Lemma jp_send_packet T0 p : early T0 p -> jp T0 (send_packet rec p) (fun p' T => early T p').
    Proof.
      intros HP. unfold send_packet. apply jp_get. intros k T1 HT1 HK. cbv zeta. do 2 (apply jp_bind_any; [env|jp|intros]).
      apply jp_bind_any; [env|jp|]. intros _. apply jp_get. intros k' T2 HT2 HK'. destruct (_ <? _). { apply jp_ret. intros T HT. eapply early_mono; [|exact HP]. lia. }
      eapply jp_bind; [env|apply jp_now|]. intros t T3 HT3 [Ht1 Ht2]. do 2 (apply jp_bind_any; [env|jp|intros]). apply jp_ret. intros T HT. apply early_tsd, early_ts; [lia|lia|]. eapply early_mono; [|exact HP]. lia.
    Qed.
    Lemma jp_resend T0 l : jp T0 (resend_lost_packet rec l) anyT.
    Proof.
      unfold resend_lost_packet. apply jp_get. intros k T1 HT1 HK. destruct (position _ _) as [pos|]; [|jp]. eapply jp_bind; [env|apply jp_unwrap|].
      intros p T2 HT2 HP. cbv beta in HP. eapply jp_ignore, jp_send_packet. pose proof (jk_win _ _ HK) as HW. rewrite Forall_forall in HW. eapply early_mono; [exact HT2|]. eapply HW, nth_error_In, HP.
    Qed.
    Lemma jp_gaps a bits l : forall T0 i loss, jp T0 (resend_gaps rec a i bits l loss) anyT.
    Proof. induction bits as [|[] bits IH]; intros; cbn [resend_gaps]; jp. apply jp_resend. Qed.
    Lemma jp_exts a exts : forall T0 loss, jp T0 (process_extensions rec a exts loss) anyT.
    Proof. induction exts as [|e exts IH]; intros; cbn [process_extensions]; jp; [apply jp_resend|apply jp_gaps]. Qed.
    Lemma jp_state T0 p : jp T0 (handle_state_packet rec p) anyT.
    Proof. unfold handle_state_packet, note_ack, finish_state_packet. jp; auto using jp_process_ack, jp_exts, jp_resend, jp_advance. Qed.
    Lemma jp_dispatch T0 p ty src : jp T0 (dispatch rec p ty src) anyT.
    Proof. unfold dispatch, handle_data_packet. jp; auto using jp_reply, jp_attach, jp_state. Qed.
    Lemma jp_handle T0 p src : jp T0 (handle_packet rec p src) anyT.
    Proof. unfold handle_packet, ack_in_order. jp; auto using jp_reply, jp_dispatch. intros k' T _ _ HK'. destruct (_ =? 1); [jsame|exact HK']. Qed.
    Lemma jp_process T0 n b src : jp T0 (process_datagram rec n b src) anyT.
    Proof. unfold process_datagram, insert_into_buffer. jp; auto using jp_handle, jp_flush_in. Qed.
    Lemma jp_body T0 n : jp T0 (recv_body rec n) anyT. Proof. unfold recv_body. jp; auto using jp_wait, jp_process. Qed.
  End Rec.
  Lemma jp_fuel f : forall T0 n, jp T0 (recv_fuel f n) anyT. Proof. induction f as [|f IH]; intros T0 n; cbn [recv_fuel]; [apply jp_fail|]. apply jp_body; [exact IH|apply envfix_recv_fuel]. Qed.
  Lemma jp_recv T0 n : jp T0 (recv n) anyT. Proof. unfold recv. jp. apply jp_fuel. Qed.
  Lemma jp_recv_from T0 n : jp T0 (recv_from n) anyT. Proof. unfold recv_from. jp; auto using jp_flush_in, jp_recv. Qed.
  Lemma jp_flush T0 : jp T0 flush anyT. Proof. unfold flush. jp. apply jp_recv. Qed.
  Lemma jp_close T0 : jp T0 close anyT. Proof. unfold close. jp; auto using jp_flush, jp_fin, jp_recv. Qed.
  Lemma jp_sending T0 : jp T0 send anyT.
  Proof.
    unfold send. apply jp_get. intros k0 T1 _ _. apply jp_loop; [env|]. intros _. apply jp_get. intros k T2 HT2 HK. destruct (s_unsent_queue k) as [|p rest] eqn:EU; [jp|].
    pose proof (jk_unsent _ _ HK) as HU. rewrite EU in HU. inversion HU as [|? ? HP HR]; subst. apply jp_bind_any; [env| |].
    { apply jp_upd. intros k' T HT _ []. constructor; sproj; auto. eapply Forall_impl; [|exact HR]. intros q. now apply early_mono. }
    intros _. eapply jp_bind; [env|apply jp_send_packet; [intros; apply jp_recv|apply envfix_call|exact HP]|]. intros p' T3 HT3 HP'. cbv beta in HP'. jp.
    intros k' T HT _ []. constructor; sproj; auto. apply Forall_app. split; [assumption|]. constructor; [|constructor]. eapply early_mono; [|exact HP']. lia.
  Qed.
  Lemma jk_queue T cs : 0 <= T -> forall k, JK T k -> JK T (fold_left (fun s c => queue_chunk c s) cs k).
  Proof.
    intros HT. induction cs as [|c cs IH]; intros k HK; [exact HK|]. cbn [fold_left]. apply IH. destruct HK. unfold queue_chunk. constructor; sproj; auto.
    apply Forall_app. split; [assumption|]. constructor; [|constructor]. rewrite chunk_packet_wire. eexists _, _. split; [reflexivity|]. cbn [h_ts]. exact HT.
  Qed.
  Lemma jp_send_to T0 d : jp T0 (send_to d) anyT. Proof. unfold send_to. jp; [intros; now apply jk_queue|apply jp_sending]. Qed.
  Lemma jp_run_op T0 o : jp T0 (run_op o) anyT.
  Proof. destruct o; cbn [run_op] in *; jp; auto using jp_recv_from, jp_send_to, jp_flush, jp_close. unfold peer_addr. jp. Qed.
  Lemma jp_syn n : forall T0 p, jp T0 (syn_loop n p) anyT. Proof. induction n as [|n IH]; intros; cbn [syn_loop]; jp. Qed.
  Lemma js_fresh s ids a : sk s = fresh_socket ids a -> w_clock (wd s) = clk -> JS s.
  Proof. intros H1 H2. split; [exact H2|]. rewrite H1. apply jk_fresh. unfold TT, rd. apply micros_range. Qed.
  Lemma js_ret {A} (m : M A) s a s' : jp 0 m anyT -> JS s -> m s = (Ret a, s') -> over s' \/ JS s'.
  Proof. intros H HS E. specialize (H s HS (proj1 (tt_range s))). unfold wp in H. rewrite E in H. destruct H as [H|H]; [now left|right; apply H]. Qed.
  Lemma js_bind resolved bound s0 s : w_clock (wd s0) = clk -> bind_socket resolved bound s0 = (Ret tt, s) -> JS s.
  Proof. intros HC E. destruct (bind_socket_spec _ _ _ _ E) as (a & rest & _ & _ & ->). eapply js_fresh; [reflexivity|exact HC]. Qed.
  Lemma js_connect other bound s0 s : w_clock (wd s0) = clk -> connect other bound s0 = (Ret tt, s) -> over s \/ JS s.
  Proof.
    intros HC. unfold connect. unfold take_address at 1. destruct other as [[|a rest]|]; [discriminate| |discriminate]. unfold bind at 1. cbn [ret]. unfold bind at 1.
    destruct (bind_socket _ bound s0) as [[[]|] s1] eqn:E1; [|discriminate]. apply (js_bind _ _ _ _ HC) in E1. intros E. eapply js_ret; [|exact E1|exact E].
    jp; [apply jp_syn|]. apply jp_handle; [intros; apply jp_recv|apply envfix_call].
  Qed.
  Lemma js_accept ev local bound s0 a s : w_clock (wd s0) = clk -> accept ev local bound s0 = (Ret a, s) -> over s \/ JS s.
  Proof.
    intros HC. unfold accept. destruct ev as [data src|k|]; [|discriminate|discriminate]. unfold bind at 1. destruct (packet_try_from _) as [[p|e]|]; [|discriminate|discriminate]. cbn [unwrap ret].
    unfold bind at 1. unfold m_get_type, unwrap. destruct (get_type p) as [ty|]; [|discriminate]. cbn [ret]. destruct (negb _); [discriminate|]. destruct local as [l|]; [|discriminate]. destruct bound as [[]|]; [|discriminate].
    unfold bind at 1. cbn [try_ ret]. unfold bind at 1. cbn [try_ ret]. unfold bind at 1.
    destruct (from_raw_parts src s0) as [[[]|] s1] eqn:E1; [|discriminate].
    assert (HS1 : JS s1). { revert E1. unfold from_raw_parts, bind. cbn. intros [= <-]. eapply js_fresh; [reflexivity|exact HC]. }
    destruct (handle_packet recv p src s1) as [[[r|]|[]] s2] eqn:E2; try discriminate. intros E. eapply js_ret in E2; [|apply jp_handle; [intros; apply jp_recv|apply envfix_call]|exact HS1].
    destruct E2 as [HO|E2]; [left|eapply js_ret; [|exact E2|exact E]; jp]. assert (HF : envfix (r' <- udp_send src r ;; try_ r' ;;; ret src)) by env. specialize (HF s2). rewrite E in HF. unfold over in *. cbn [snd] in HF. destruct HF as (_ & _ & _ & _ & HF). lia.
  Qed.
End Delay.

Lemma accept_clock ev local bound s0 a s : accept ev local bound s0 = (Ret a, s) -> w_clock (wd s) = w_clock (wd s0).
Proof.
  unfold accept. destruct ev as [data src|k|]; [|discriminate|discriminate]. unfold bind at 1. destruct (packet_try_from _) as [[p|e]|]; [|discriminate|discriminate]. cbn [unwrap ret].
  unfold bind at 1. unfold m_get_type, unwrap. destruct (get_type p) as [ty|]; [|discriminate]. cbn [ret]. destruct (negb _); [discriminate|]. destruct local as [l|]; [|discriminate]. destruct bound as [[]|]; [|discriminate].
  unfold bind at 1. cbn [try_ ret]. unfold bind at 1. cbn [try_ ret]. unfold bind at 1.
  destruct (from_raw_parts src s0) as [[[]|] s1] eqn:E1; [|discriminate].
  assert (HS1 : w_clock (wd s1) = w_clock (wd s0)). { revert E1. unfold from_raw_parts, bind. cbn. now intros [= <-]. }
  pose proof (envfix_handle recv envfix_call p src s1) as [HE _].
  destruct (handle_packet recv p src s1) as [[[r|]|[]] s2] eqn:E2; try discriminate. cbn [snd] in HE. intros E. rewrite <- HS1, <- HE.
  assert (HF : envfix (r' <- udp_send src r ;; try_ r' ;;; ret src)) by envfix. specialize (HF s2). rewrite E in HF. apply HF.
Qed.
(** The readings made so far do not run backwards. *)
Definition forward (s : st) : Prop := forall i j, (i <= j)%nat -> (j < w_tick (wd s))%nat -> rd (w_clock (wd s)) i <= rd (w_clock (wd s)) j.
Lemma delay_run N s : reachable s -> (forall i j, (i <= j)%nat -> (j <= N)%nat -> rd (w_clock (wd s)) i <= rd (w_clock (wd s)) j) -> over N s \/ JS (w_clock (wd s)) N s.
Proof.
  induction 1 as [resolved bound s0 s HZ E|other bound s0 s HZ E|ev local bound s0 a s HZ E|o s v s' HR IH E HN|s evs HR IH]; intros HM.
  - right. eapply js_bind; [|exact E]. destruct (bind_socket_spec _ _ _ _ E) as (a & rest & _ & _ & ->). reflexivity.
  - eapply js_connect; [exact HM| |exact E]. pose proof (envfix_connect other bound s0) as [HE _]. rewrite E in HE. now symmetry.
  - eapply js_accept; [exact HM| |exact E]. symmetry. eapply accept_clock, E.
  - pose proof (envfix_run_op o s) as (HE & _ & _ & _ & HT). rewrite E in HE, HT. cbn [snd] in HE, HT. rewrite HE in *. destruct (IH HM) as [HO|HS]; [left; unfold over in *; lia|].
    pose proof (jp_run_op _ _ HM 0 o s HS) as HP. unfold wp in HP. rewrite E in HP. cbn [fst snd] in HP. specialize (HP (proj1 (tt_range _ _ s))).
    destruct HP as [HO|HP]; [now left|right]. destruct v as [v|[k|l| |]]; cbn [jpost] in HP; try (now apply HP). exfalso. now apply (HN l).
  - apply IH. exact HM.
Qed.
Lemma delay_inv s : reachable s -> forward s -> JS (w_clock (wd s)) (pred (w_tick (wd s))) s.
Proof.
  intros HR HF. destruct (delay_run (pred (w_tick (wd s))) s HR) as [HO|HS]; [|unfold over in HO; lia|exact HS].
  intros i j H1 H2. destruct (w_tick (wd s)) as [|n] eqn:E; [replace j with i by (cbn in H2; lia); lia|]. apply HF; [exact H1|]. rewrite E. cbn in H2. lia.
Qed.
Lemma queuing_exact s : reachable s -> forward s -> 0 <= filtered_current_delay (sk s) - min_base_delay (sk s) < 2 ^ 32.
Proof. intros HR HM. eapply jk_queuing, delay_inv; eassumption. Qed.

(** ** What follows *)
Lemma rtt_range s : reachable s -> forward s -> 0 <= s_rtt (sk s) <= 4294967.
Proof. intros HR HF. apply (jk_rtt _ _ (proj2 (delay_inv s HR HF))). Qed.
Lemma samples_covered s : reachable s -> forward s ->
  (forall t d, In (t, d) (s_current_delays (sk s)) -> 0 <= d < 2 ^ 32 /\ exists b, In b (s_base_delays (sk s)) /\ 0 <= b <= d) /\ (length (s_base_delays (sk s)) <= 10)%nat.
Proof.
  intros HR HF. destruct (delay_inv s HR HF) as [_ []]. split; [|assumption]. intros t d HI. rewrite Forall_forall in jk_timely0, jk_cov0, jk_base0. split; [apply (jk_timely0 _ HI)|].
  destruct (jk_cov0 _ HI) as (j & b & H1 & H2 & _). apply nth_error_In, in_rev in H1. exists b. split; [exact H1|]. cbn [snd] in H2. specialize (jk_base0 b H1). cbv beta in jk_base0. lia.
Qed.
Lemma extremes (l : list Z) : l <> [] -> exists lo hi, In lo l /\ In hi l /\ Forall (fun d => lo <= d <= hi) l.
Proof.
  induction l as [|x l IH]; [congruence|]. intros _. destruct l as [|y l]; [exists x, x; cbn; repeat split; auto; repeat constructor; lia|].
  destruct IH as (lo & hi & H1 & H2 & H3); [discriminate|]. exists (Z.min x lo), (Z.max x hi). split; [destruct (Z.min_spec x lo) as [[_ ->]|[_ ->]]; [now left|now right]|].
  split; [destruct (Z.max_spec x hi) as [[_ ->]|[_ ->]]; [now right|now left]|]. constructor; [lia|]. eapply Forall_impl; [|exact H3]. cbv beta. intros a. lia.
Qed.
Lemma filtered_between s : reachable s -> forward s -> s_current_delays (sk s) <> [] ->
  exists lo hi, In lo (map snd (s_current_delays (sk s))) /\ In hi (map snd (s_current_delays (sk s))) /\ lo <= filtered_current_delay (sk s) <= hi.
Proof.
  intros HR HF HN. destruct (delay_inv s HR HF) as [_ HK]. assert (HM : map snd (s_current_delays (sk s)) <> []) by (destruct (s_current_delays (sk s)); [congruence|discriminate]).
  destruct (extremes _ HM) as (lo & hi & H1 & H2 & H3). exists lo, hi. split; [exact H1|]. split; [exact H2|].
  assert (HB : forall d, In d (map snd (s_current_delays (sk s))) -> 0 <= d < 2 ^ 32).
  { intros d HI. apply in_map_iff in HI as (x & <- & HI). pose proof (jk_timely _ _ HK) as HT. rewrite Forall_forall in HT. apply (HT x HI). }
  apply ewma_range; [apply HB, H1|apply HB, H2|exact HM|exact H3].
Qed.
(** After one acknowledgement. *)
Lemma ack_queuing i s s' : reachable s -> process_ack i s = (Ret tt, s') -> forward s' -> 0 <= filtered_current_delay (sk s') - min_base_delay (sk s') < 2 ^ 32.
Proof.
  intros HR E HF. pose proof (envfix_process_ack i s) as (HE & _ & _ & _ & HT). rewrite E in HE, HT. cbn [snd] in HE, HT. set (N := pred (w_tick (wd s'))).
  assert (HM : forall i j, (i <= j)%nat -> (j <= N)%nat -> rd (w_clock (wd s)) i <= rd (w_clock (wd s)) j).
  { rewrite <- HE. intros a b H1 H2. unfold N in H2. destruct (w_tick (wd s')) as [|n] eqn:ET; [replace b with a by (cbn in H2; lia); lia|]. apply HF; [exact H1|]. rewrite ET. cbn in H2. lia. }
  destruct (delay_run N s HR HM) as [HO|HS]; [unfold over, N in HO; lia|].
  pose proof (js_ret _ N (process_ack i) s tt s' (jp_process_ack _ _ HM 0 i) HS E) as [HO|[_ HK]]; [unfold over, N in HO; lia|]. eapply jk_queuing, HK.
Qed.
