(** The receive path only performs the steps of Steps.v. *)
From Verif Require Export Steps.
Require Import ZifyBool ZifyNat ZifyN.
Local Open Scope Z_scope.
Ltac Zify.zify_post_hook ::= Z.div_mod_to_equations.

Lemma ts_sub_range a b : 0 <= a < 2 ^ 32 -> 0 <= b < 2 ^ 32 -> - 2 ^ 32 < ts_sub a b < 2 ^ 32.
Proof. unfold ts_sub. lia. Qed.
Lemma field_range off n p : 0 <= field off n p < 2 ^ (8 * Z.of_nat n).
Proof.
  unfold field. pose proof (be_decode_range (firstn n (skipn off p))) as H. split; [lia|].
  eapply Z.lt_le_trans; [apply H|]. apply Z.pow_le_mono_r; [lia|]. unfold zlen. pose proof (firstn_le_length n (skipn off p)). lia.
Qed.
Lemma timestamp_range p : 0 <= timestamp p < 2 ^ 32. Proof. apply (field_range 4 4). Qed.
Lemma seq_nr_range p : 0 <= seq_nr p < 65536. Proof. apply (field_range 16 2). Qed.
Lemma ack_nr_range p : 0 <= ack_nr p < 65536. Proof. apply (field_range 18 2). Qed.
Lemma cid_range p : 0 <= connection_id p < 65536. Proof. apply (field_range 2 2). Qed.
Lemma wnd_range p : 0 <= wnd_size p < 2 ^ 32. Proof. apply (field_range 12 4). Qed.

Lemma i32_small v : 0 <= v < 2147483648 -> i32 v = v.
Proof.
  intros H. unfold i32, swrap. cbv zeta. change (2 ^ 32) with 4294967296. change (2 ^ (32 - 1)) with 2147483648.
  rewrite Z.mod_small by lia. destruct (v <? 2147483648) eqn:E; lia.
Qed.

Lemma sum_len_cons p l : sum_len (p :: l) = packet_len p + sum_len l.
Proof.
  assert (H : forall x a, fold_left (fun acc p => acc + packet_len p) l (a + x) = a + fold_left (fun acc p => acc + packet_len p) l x).
  { induction l as [|q l IH]; intros x a; cbn [fold_left]; [reflexivity|]. rewrite <- IH. f_equal. lia. }
  unfold sum_len. cbn [fold_left]. rewrite (Z.add_comm 0), H. reflexivity.
Qed.
Lemma sum_len_app a b : sum_len (a ++ b) = sum_len a + sum_len b.
Proof. induction a as [|p a IH]; [reflexivity|]. rewrite <- app_comm_cons, !sum_len_cons, IH. lia. Qed.
Lemma sum_len_nonneg l : 0 <= sum_len l.
Proof. induction l as [|p l IH]; [change (sum_len []) with 0; lia|]. rewrite sum_len_cons. unfold packet_len, zlen. lia. Qed.

Lemma u32_sub_u32 a b : u32 (u32 a - b) = u32 (a - b).
Proof. rewrite !u32_eq. now rewrite Zminus_mod_idemp_l. Qed.
Lemma u32_sub_u32_r a b : u32 (a - u32 b) = u32 (a - b).
Proof. rewrite !u32_eq. now rewrite Zminus_mod_idemp_r. Qed.
Lemma abs_diff_range a b : 0 <= a < 2 ^ 32 -> 0 <= b < 2 ^ 32 -> 0 <= abs_diff a b < 2 ^ 32.
  Proof. unfold abs_diff, ts_sub. destruct (b <? a) eqn:E; lia. Qed.
Lemma state_eqb_true a b : sstate_eqb a b = true -> a = b. Proof. now destruct a, b. Qed.
Lemma state_eqb_refl a : sstate_eqb a a = true. Proof. now destruct a. Qed.
Lemma state_eqb_false a b : sstate_eqb a b = false -> a <> b. Proof. intros H ->. now rewrite state_eqb_refl in H. Qed.
Lemma ptype_eqb_true a b : ptype_eqb a b = true -> a = b. Proof. now destruct a, b. Qed.
Lemma ptype_eqb_refl a : ptype_eqb a a = true. Proof. now destruct a. Qed.


Section SP.
  Variable G : packet -> addr -> Prop.
  Variable W : packet -> Prop.
  Hypothesis G_valid : forall p src, G p src -> valid p.
  Hypothesis W_ts : forall p t, W p -> W (set_timestamp t p).
  Hypothesis W_tsd : forall p t, W p -> W (set_timestamp_difference t p).
  Notation steps := (steps G W).
  Notation rspec := (rspec G W).
  Notation okp := (okp G W).
  Notation pre := (pre G W).
  Notation skstep := (skstep G).

  (** Extend the recorded chain of steps to the current state of the goal by one step. *)
  Ltac cur_state := lazymatch goal with |- wp _ _ ?s => s | |- okp _ _ _ ?s => s end.
  Ltac adv tac :=
    lazymatch goal with
    | HS : steps ?s0 ?s |- _ =>
      let X := cur_state in
      let H' := fresh "HS" in
      assert (H' : steps s0 X) by (eapply steps_snoc; [exact HS|tac]);
      clear HS; rename H' into HS
    end.
  Ltac advk tac := adv ltac:(lazymatch goal with |- step _ _ ?a (mkSt ?k _) => apply (st_sk G W a k) end; sproj; tac).
  Ltac tick := adv ltac:(apply st_tick).
  Ltac done_ok := first [apply okp_fail; assumption | apply okp_ret; [assumption|]].
  Ltac panic := exact I.
  Ltac call H := (eapply rspec_bind; [eassumption..|apply H|eassumption|eassumption|]; intros ? ? ? ? ?).

  Lemma st_sk_same s : mkSt (sk s) (wd s) = s. Proof. destruct s; reflexivity. Qed.

  Lemma flush_incoming_spec n s : wp (flush_incoming_buffer n) (fun o s' =>
      match o with Ret d => d = fst (flush_sk n (sk s)) /\ s' = mkSt (snd (flush_sk n (sk s))) (wd s)
      | Fail (Panic _) => s' = s | _ => False end) s.
  Proof.
    unfold flush_incoming_buffer, flush_sk. do 2 wstep. destruct (s_pending_data (sk s)) as [|b0 pd] eqn:EP; cbn [is_nil negb].
    - destruct (s_incoming_buffer (sk s)) as [|p buf] eqn:EB.
      + wstep. cbn [fst snd]. rewrite st_sk_same. auto.
      + assert (HK : forall ready : bool, ready = (s_ack_nr (sk s) =? seq_nr p) || (u16 (s_ack_nr (sk s) + 1) =? seq_nr p) ->
          wp (if ready then pl <- unwrap 576 (payload p) ;;
               let flushed := firstn n pl in
               (if (length flushed =? length pl)%nat then advance_incoming_buffer
                else upd_sk (ss_pending_data (skipn (length flushed) pl))) ;;; ret flushed
              else ret []) (fun o s' => match o with Ret d => d = fst (flush_sk n (sk s)) /\ s' = mkSt (snd (flush_sk n (sk s))) (wd s)
                | Fail (Panic _) => s' = s | _ => False end) s).
        { intros ready ->. unfold flush_sk. rewrite EP, EB. destruct (_ || _); wstep.
          - apply wp_unwrap; [intros pl ->|intros _; reflexivity]. cbv zeta. wstep. unfold advance_incoming_buffer.
            destruct (_ =? _)%nat eqn:EL; do 2 wstep; cbn [fst snd]; auto.
          - cbn [fst snd]. rewrite st_sk_same. auto. }
        unfold flush_sk in HK. rewrite EP, EB in HK.
        wstep. destruct (s_ack_nr (sk s) =? seq_nr p) eqn:EA.
        * wstep. exact (HK true eq_refl).
        * wstep. wstep; [reflexivity|]. intros _. wstep. exact (HK _ eq_refl).
    - cbv zeta. wstep. destruct (_ =? _)%nat eqn:EL.
      + wstep. wstep. unfold advance_incoming_buffer. do 2 wstep. cbn [fst snd]. auto.
      + do 2 wstep. cbn [fst snd]. auto.
  Qed.
  Lemma flush_incoming_steps n : rspec (flush_incoming_buffer n) (fun _ _ => True).
  Proof.
    intros s HP. eapply wp_conseq; [apply flush_incoming_spec|]. intros [d|[]] s' H; cbn; try contradiction; auto.
    destruct H as [_ ->]. split; [|exact I]. apply rt_step, st_sk, k_flush.
  Qed.

  (** ** Replies *)
  Inductive is_reply (k : socket) : packet -> Prop :=
  | mk_reply t ts tsd exts :
      t = PReset \/ t = PState \/ (t = PFin /\ s_state k = FinSent) ->
      0 <= ts < 2 ^ 32 -> 0 <= tsd < 2 ^ 32 -> reply_exts k exts -> (t = PReset -> exts = []) ->
      is_reply k (wire (mkHdr t (s_sender_connection_id k) ts tsd 0 (s_seq_nr k) (s_ack_nr k)) exts []).
  Lemma is_reply_emits k r orig src : is_reply k r -> G orig src -> emits G W k src (set_wnd_size WINDOW_SIZE r).
  Proof.
    intros HR HG. destruct HR. rewrite set_wnd_wire. cbn [h_type h_cid h_ts h_tsd h_seq h_ack]. econstructor; eauto.
  Qed.

  Lemma prepare_reply_wire orig t s : wp (prepare_reply orig t) (fun o s' => s' = ticked s /\ exists tsd,
      o = Ret (wire (mkHdr t (s_sender_connection_id (sk s)) (clock_now s) tsd 0 (s_seq_nr (sk s)) (s_ack_nr (sk s))) [] [])
      /\ tsd = u32 (abs_diff (clock_now s) (timestamp orig))) s.
  Proof.
    unfold prepare_reply. do 4 wstep. wstep. split; [reflexivity|]. eexists. split; [|reflexivity].
    rewrite packet_new_wire, set_type_wire, set_ts_wire, set_tsd_wire, set_cid_wire, set_seq_wire, set_ack_wire. reflexivity.
  Qed.
  Lemma ticked_steps s : steps s (ticked s). Proof. apply rt_step, st_tick. Qed.
  Lemma clock_range s : 0 <= clock_now s < 2 ^ 32. Proof. apply micros_range. Qed.
  Hint Resolve clock_range : core.

  Definition plain_reply (t : ptype) (s' : st) (r : packet) : Prop := exists ts tsd, 0 <= ts < 2 ^ 32 /\ 0 <= tsd < 2 ^ 32 /\
      r = wire (mkHdr t (s_sender_connection_id (sk s')) ts tsd 0 (s_seq_nr (sk s')) (s_ack_nr (sk s'))) [] [].
  Lemma prepare_reply_steps orig t : rspec (prepare_reply orig t) (fun r s' => plain_reply t s' r).
  Proof.
    intros s HP. eapply wp_conseq; [apply prepare_reply_wire|]. intros o s' (-> & tsd & -> & Htsd). cbn.
    split; [apply ticked_steps|]. exists (clock_now s), tsd. split; [apply clock_range|]. split; [subst; apply u32_range|]. reflexivity.
  Qed.
  Lemma plain_is_reply t s r : (t = PReset \/ t = PState \/ t = PFin /\ s_state (sk s) = FinSent) -> plain_reply t s r -> is_reply (sk s) r.
  Proof. intros Ht (ts & tsd & H1 & H2 & ->). constructor; auto. now left. Qed.

  (** The state does not change while the selective ack is attached. *)
  Lemma attach_sack_spec orig r t s : plain_reply t s r -> wp (attach_sack orig r) (fun o s' =>
      match o with
      | Ret r' => s' = s /\ exists ts tsd exts, 0 <= ts < 2 ^ 32 /\ 0 <= tsd < 2 ^ 32 /\ reply_exts (sk s) exts /\
          r' = wire (mkHdr t (s_sender_connection_id (sk s)) ts tsd 0 (s_seq_nr (sk s)) (s_ack_nr (sk s))) exts []
      | Fail (Panic _) => s' = s | _ => False end) s.
  Proof.
    intros (ts & tsd & H1 & H2 & ->). unfold attach_sack. do 2 wstep. destruct (1 <? _).
    - wstep. unfold build_selective_ack. do 2 wstep. wstep.
      assert (HK : forall a : Z, wp (unwrap 781 (sack_build (s_ack_nr (sk s)) [] (s_incoming_buffer (sk s)))) (fun o s' =>
        match o with Ret sack => s' = s /\ sack_build (s_ack_nr (sk s)) [] (s_incoming_buffer (sk s)) = Some sack
        | Fail (Panic _) => s' = s | _ => False end) s).
      { intros _. apply wp_unwrap; [|intros; reflexivity]. intros sack E. auto. }
      assert (HK2 : forall sack s', s' = s /\ sack_build (s_ack_nr (sk s)) [] (s_incoming_buffer (sk s)) = Some sack ->
        wp (if is_nil sack then ret (wire (mkHdr t (s_sender_connection_id (sk s)) ts tsd 0 (s_seq_nr (sk s)) (s_ack_nr (sk s))) [] [])
            else unwrap 979 (set_sack sack (wire (mkHdr t (s_sender_connection_id (sk s)) ts tsd 0 (s_seq_nr (sk s)) (s_ack_nr (sk s))) [] [])))
          (fun o s' => match o with
           | Ret r' => s' = s /\ exists ts tsd exts, 0 <= ts < 2 ^ 32 /\ 0 <= tsd < 2 ^ 32 /\ reply_exts (sk s) exts /\
             r' = wire (mkHdr t (s_sender_connection_id (sk s)) ts tsd 0 (s_seq_nr (sk s)) (s_ack_nr (sk s))) exts []
           | Fail (Panic _) => s' = s | _ => False end) s').
      { intros sack s' [-> E]. destruct sack as [|b sack]; cbn [is_nil].
        - wstep. split; [reflexivity|]. exists ts, tsd, []. repeat (split; [assumption|]). split; [now left|reflexivity].
        - apply wp_unwrap; [|intros; reflexivity]. intros q Hq. split; [reflexivity|].
          exists ts, tsd, [(x01, b :: sack)]. repeat (split; [assumption|]). split.
          { right. exists (b :: sack). repeat split; auto. discriminate. }
          destruct (Z_lt_dec (zlen (b :: sack)) 4) as [L|L]; [rewrite c06_bad in Hq by (left; exact L); discriminate|].
          destruct (Z.eq_dec (zlen (b :: sack) mod 4) 0) as [L4|L4]; [|rewrite c06_bad in Hq by (right; exact L4); discriminate].
          rewrite set_sack_bytes in Hq; [|constructor|unfold zlen in L; lia|unfold zlen in L4; lia].
          injection Hq as <-. reflexivity. }
      destruct (is_nil (s_incoming_buffer (sk s))).
      + wstep. eapply wp_conseq; [apply (HK 0)|]. intros [sack|[]] s' H; cbn beta iota; auto.
      + wstep; [reflexivity|]. intros _. eapply wp_conseq; [apply (HK 0)|]. intros [sack|[]] s' H; cbn beta iota; auto.
    - wstep. split; [reflexivity|]. exists ts, tsd, []. repeat (split; [assumption|]). split; [now left|reflexivity].
  Qed.
  Definition sacked_reply (t : ptype) (s : st) (r : packet) : Prop := exists ts tsd exts, 0 <= ts < 2 ^ 32 /\ 0 <= tsd < 2 ^ 32 /\ reply_exts (sk s) exts /\
    r = wire (mkHdr t (s_sender_connection_id (sk s)) ts tsd 0 (s_seq_nr (sk s)) (s_ack_nr (sk s))) exts [].
  Lemma attach_sack_steps orig r t s0 s : steps s0 s -> plain_reply t s r ->
    wp (attach_sack orig r) (okp s0 (fun r' s' => s' = s /\ sacked_reply t s r')) s.
  Proof.
    intros HS HR. eapply wp_conseq; [apply (attach_sack_spec _ _ _ _ HR)|].
    intros [r'|[]] s' H; cbn; try contradiction; auto. destruct H as (-> & H). auto.
  Qed.
  Lemma sacked_is_reply t s r : (t = PState \/ t = PFin /\ s_state (sk s) = FinSent) -> sacked_reply t s r -> is_reply (sk s) r.
  Proof.
    intros Ht (ts & tsd & exts & H1 & H2 & H3 & ->). constructor; auto; try tauto. intros ->. destruct Ht as [|[]]; discriminate.
  Qed.

  Definition reply_ok (o : option packet) (s : st) : Prop := forall r, o = Some r -> is_reply (sk s) r.
  Lemma wp_okp_bind {A B} s0 (m : M A) (f : A -> M B) (V : A -> st -> Prop) (V' : B -> st -> Prop) s :
    wp m (okp s0 V) s -> (forall a s', steps s0 s' -> V a s' -> wp (f a) (okp s0 V') s') -> wp (bind m f) (okp s0 V') s.
  Proof.
    intros H HK. apply wp_bind. eapply wp_conseq; [exact H|]. intros [a|e] s' HH; cbn in *.
    - destruct HH. apply HK; auto.
    - destruct e; auto.
  Qed.
  Lemma wp_okp_conseq {A} s0 (m : M A) (V V' : A -> st -> Prop) s :
    wp m (okp s0 V) s -> (forall a s', steps s0 s' -> V a s' -> V' a s') -> wp m (okp s0 V') s.
  Proof. intros H HK. eapply wp_conseq; [exact H|]. intros [a|[]] s' HH; cbn in *; intuition. Qed.

  Lemma prepare_keep orig t s : wp (prepare_reply orig t) (fun o s' => s' = ticked s /\ exists r, o = Ret r /\ plain_reply t s' r) s.
  Proof.
    eapply wp_conseq; [apply prepare_reply_wire|]. intros o s' (-> & tsd & -> & Htsd). split; [reflexivity|]. eexists; split; [reflexivity|].
    exists (clock_now s), tsd. split; [apply clock_range|]. split; [subst; apply u32_range|]. reflexivity.
  Qed.

  Lemma handle_data_steps p : rspec (handle_data_packet p) reply_ok.
  Proof.
    intros s HP. unfold handle_data_packet. do 2 wstep. cbv zeta.
    set (t := if sstate_eqb (s_state (sk s)) FinSent then PFin else PState).
    apply wp_bind. eapply wp_conseq; [apply prepare_keep|]. intros o s' (-> & r & -> & HR). cbv beta iota.
    eapply wp_okp_bind; [eapply (attach_sack_steps p r t); [apply ticked_steps|exact HR]|].
    intros r' s' HS [-> HR']. wstep. split; [exact HS|]. intros ? [= <-]. eapply sacked_is_reply; [|exact HR'].
    unfold t. destruct (sstate_eqb _ _) eqn:E; [right|left; reflexivity]. split; [reflexivity|]. now apply state_eqb_true in E.
  Qed.

  (** ** Congestion control *)
  Lemma update_congestion_timeout_steps d s0 s : 0 <= d <= 4294967 -> steps s0 s ->
    wp (update_congestion_timeout d) (okp s0 any) s.
  Proof.
    intros Hd HS. unfold update_congestion_timeout. do 2 wstep.
    do 4 (wstep; wstep; [intros; exact I|intros _]). do 2 wstep. do 2 (wstep; wstep; [intros; exact I|intros _]). do 2 wstep.
    do 2 (wstep; wstep; [intros; exact I|intros _]). wstep. sproj.
    split; [|exact I]. eapply steps_snoc; [exact HS|]. apply (st_sk G W s (rto_sk d (sk s))). now constructor.
  Qed.

  Lemma update_congestion_window_steps off b s0 s : steps s0 s -> wp (update_congestion_window off b) (okp s0 any) s.
  Proof.
    intros HS. unfold update_congestion_window. do 2 wstep. cbv zeta. do 2 wstep. sproj. wstep; wstep; [intros; exact I|intros _].
    wstep. sproj. split; [|exact I]. eapply steps_snoc; [exact HS|].
    apply (st_sk G W s (ss_cwnd (Z.max (Z.min (grown_cwnd off b (s_cwnd (sk s))) (u32 (s_curr_window (sk s) + ALLOWED_INCREASE * MSS))) (MIN_CWND * MSS)) (sk s))).
    constructor.
  Qed.

  Lemma queuing_delay_keep s : wp queuing_delay (fun o s' => s' = s /\ match o with Ret _ | Fail (Panic _) => True | _ => False end) s.
  Proof. unfold queuing_delay. do 2 wstep. wstep; auto. Qed.

  Lemma process_ack_steps i : rspec (process_ack i) any.
  Proof.
    intros s HP. assert (HS : steps s s) by apply steps_refl. unfold process_ack. do 2 wstep. cbv zeta. do 2 wstep. tick.
    wstep. apply wp_unwrap; [intros p Hp|intros; exact I]. cbv zeta.
    pose proof (ts_sub_range _ _ (clock_range s) (timestamp_range p)) as Hr.
    unfold update_base_delay, update_current_delay. do 2 wstep. advk ltac:(apply k_base; [exact Hr|apply clock_range]).
    do 2 wstep. sproj. advk ltac:(apply k_current; [exact Hr|apply clock_range]).
    wstep. eapply wp_conseq; [apply queuing_delay_keep|]. intros [q|[]] s' [-> HH]; cbv beta iota in HH |- *; try contradiction; [|exact I].
    eapply wp_okp_bind; [apply update_congestion_window_steps; eassumption|]. intros _ s1 HS1 _.
    wstep. eapply wp_conseq; [apply queuing_delay_keep|]. intros [q'|[]] s' [-> HH2]; cbv beta iota in HH2 |- *; try contradiction; [|exact I].
    wstep; wstep; [intros; exact I|]. intros _. apply update_congestion_timeout_steps; [|assumption].
    pose proof (u32_range (i64 (ts_sub (clock_now s) (timestamp p) - q'))). rewrite i32_small; lia.
  Qed.

  (** ** Window *)
  Lemma drop_acked_spec n s : (n <= length (s_send_window (sk s)))%nat -> (n > 0)%nat -> wp (drop_acked n) (fun o s' =>
    match o with
    | Ret _ => s' = mkSt (ss_curr_window (u32 (s_curr_window (sk s) - sum_len (firstn n (s_send_window (sk s)))))
                         (ss_send_window (skipn n (s_send_window (sk s))) (sk s))) (wd s)
    | Fail (Panic _) => True | _ => False end) s.
  Proof.
    revert s. induction n as [|n IH]; intros s HL HN; [lia|]. cbn [drop_acked]. do 2 wstep.
    destruct (s_send_window (sk s)) as [|p rest] eqn:EW; [exact I|]. do 2 wstep. sproj. wstep; wstep; [intros; exact I|intros _]. do 2 wstep. sproj.
    cbn [firstn skipn]. rewrite sum_len_cons. cbn [length] in HL.
    destruct n as [|n].
    - cbn [drop_acked]. wstep. cbn [firstn skipn]. unfold ss_curr_window, ss_send_window; sproj. f_equal. f_equal.
      rewrite u32_sub_u32_r. change (sum_len []) with 0. now rewrite Z.add_0_r.
    - eapply wp_conseq; [apply IH; sproj; lia|]. intros [[]|[]] s' H; auto. sproj_in H. rewrite H.
      unfold ss_curr_window, ss_send_window; sproj. f_equal. f_equal.
      rewrite u32_sub_u32, !u32_eq. rewrite <- Zminus_mod_idemp_l, Zminus_mod_idemp_r, Zminus_mod_idemp_l. f_equal. lia.
  Qed.
  Lemma base_delay_frame_acked d now k : s_last_acked (base_delay_socket d now k) = s_last_acked k.
  Proof. unfold base_delay_socket. destruct (_ || _); [reflexivity|]. cbv zeta. destruct (_ <? _); reflexivity. Qed.
  Lemma flush_frame_acked n k : s_last_acked (snd (flush_sk n k)) = s_last_acked k.
  Proof.
    assert (HA : forall k, s_last_acked (advance_socket k) = s_last_acked k) by (intros k0; unfold advance_socket; destruct (s_incoming_buffer k0); reflexivity).
    unfold flush_sk. destruct (s_pending_data k); [destruct (s_incoming_buffer k); [reflexivity|]; destruct (_ || _); [|reflexivity];
      destruct (payload _); [|reflexivity]|]; cbn [snd]; cbv zeta; destruct (_ =? _)%nat; rewrite ?HA; reflexivity.
  Qed.
  Lemma skstep_acked k k' : skstep k k' -> peer_acked G (s_last_acked k) -> peer_acked G (s_last_acked k').
  Proof.
    intros H HA; destruct H; sproj; try exact HA; try (now exists p, src).
    - now rewrite base_delay_frame_acked.
    - now rewrite flush_frame_acked.
  Qed.
  Lemma steps_acked s s' : steps s s' -> peer_acked G (s_last_acked (sk s)) -> peer_acked G (s_last_acked (sk s')).
  Proof. apply (steps_ind_inv G W (fun s => peer_acked G (s_last_acked (sk s)))). intros t t' H; destruct H; auto. now apply skstep_acked. Qed.
  Lemma advance_window_steps s0 s : steps s0 s -> peer_acked G (s_last_acked (sk s)) -> wp advance_send_window (okp s0 any) s.
  Proof.
    intros HS HA. unfold advance_send_window. do 2 wstep.
    destruct (position _ _) as [pos|] eqn:EP.
    - eapply wp_conseq; [apply drop_acked_spec; [apply position_lt in EP; lia|lia]|].
      intros [[]|[]] s' H; cbn; auto; try contradiction. split; [|exact I]. eapply steps_snoc; [exact HS|]. rewrite H.
      apply st_sk. now constructor.
    - wstep. split; [exact HS|exact I].
  Qed.

  Lemma okp_loop {S A} s0 fuel (body : S -> M (S + A)) (J : S -> st -> Prop) (V : A -> st -> Prop) x s :
    steps s0 s -> J x s ->
    (forall y t, steps s0 t -> J y t -> wp (body y) (okp s0 (fun r t' => match r with inl y' => J y' t' | inr a => V a t' end)) t) ->
    wp (loop fuel body x) (okp s0 V) s.
  Proof.
    intros HS HJ HB. apply (wp_loop (fun y t => steps s0 t /\ J y t)); [auto|intros y t [H _]; exact H|].
    intros y t [HT HJt]. eapply wp_conseq; [apply HB; eassumption|]. intros [[y'|a]|[]] t' H; cbn in *; auto.
  Qed.

  (** ** The open part *)
  Section Rec.
    Variable rec : nat -> M (list byte * addr).
    Hypothesis Hrec : forall n, rspec (rec n) any.

    Lemma udp_send_steps dest p s0 s (V : result unit kind -> st -> Prop) : steps s0 s -> emits G W (sk s) dest p ->
      (forall r, V r (tx_state dest p s)) -> wp (udp_send dest p) (okp s0 V) s.
    Proof.
      intros HS HE HV. assert (steps s0 (tx_state dest p s)) by (eapply steps_snoc; [exact HS|now constructor]).
      apply wp_udp_send; intros; cbn; auto.
    Qed.
    Lemma try_steps {A} (r : result A kind) s0 s : steps s0 s -> wp (try_ r) (okp s0 (fun a s' => r = Ok a /\ s' = s)) s.
    Proof. intros. apply wp_try; intros; subst; cbn; auto. Qed.
    Lemma sk_tx dest p s : sk (tx_state dest p s) = sk s. Proof. reflexivity. Qed.

    Lemma send_packet_steps p : W p -> rspec (send_packet rec p) (fun q _ => W q).
    Proof.
      intros Wp s HP. assert (HS : steps s s) by apply steps_refl. unfold send_packet. do 2 wstep. cbv zeta. do 2 wstep. tick.
      do 2 wstep. set (mi := Z.max _ _).
      eapply wp_okp_bind; [apply (okp_loop _ _ _ (fun _ _ => True) any); [assumption|exact I|]|].
      - intros _ t HT _. do 2 wstep. destruct (_ <=? _); [|wstep; split; [assumption|exact I]].
        do 2 wstep. assert (HT' : steps s (ticked t)) by (eapply steps_snoc; [exact HT|apply st_tick]).
        destruct (_ <? _); [|wstep; split; [assumption|exact I]].
        eapply rspec_bind; [eassumption..|apply Hrec|eassumption|eassumption|]. intros x t' HT1 HT2 _. wstep. split; [assumption|exact I].
      - intros _ t HT _. clear HS. do 2 wstep. destruct (_ <? _); [wstep; split; [assumption|exact Wp]|].
        do 2 wstep. cbv zeta. assert (HT' : steps s (ticked t)) by (eapply steps_snoc; [exact HT|apply st_tick]).
        eapply wp_okp_bind; [apply (udp_send_steps _ _ _ _ any); [assumption|apply em_data; auto|intros; exact I]|].
        intros r t1 HT1 _. eapply wp_okp_bind; [apply try_steps; assumption|]. intros _ t2 HT2 _. wstep. split; auto.
    Qed.

    Lemma ignore_steps {A} (m : M A) V : rspec m V -> rspec (ignore_result m) any.
    Proof.
      intros H s HP. specialize (H s HP). unfold wp, ignore_result in *. destruct (m s) as [[a|[]] s']; cbn in *; auto. destruct H. split; [assumption|exact I]. split; [assumption|exact I].
    Qed.
    Lemma resend_lost_steps n : rspec (resend_lost_packet rec n) any.
    Proof.
      intros s HP. unfold resend_lost_packet. do 2 wstep. destruct (position _ _) as [pos|] eqn:E; [|wstep; split; [apply steps_refl|exact I]].
      wstep. apply wp_unwrap; [intros p Hp|intros; exact I]. eapply rspec_tail; [eassumption..|eapply ignore_steps, send_packet_steps|exact HP|apply steps_refl|intros; exact I].
      destruct HP as [_ HW]. rewrite Forall_forall in HW. apply HW. eapply nth_error_In; eauto.
    Qed.
    Lemma resend_gaps_steps ack idx bits ls loss : rspec (resend_gaps rec ack idx bits ls loss) any.
    Proof.
      revert idx loss. induction bits as [|[] bits IH]; intros idx loss s HP; cbn [resend_gaps].
      - wstep. split; [apply steps_refl|exact I].
      - apply IH; exact HP.
      - do 2 (wstep; wstep; [intros; exact I|intros _]). destruct (_ <? _); [|wstep; split; [apply steps_refl|exact I]].
        eapply rspec_bind; [eassumption..|apply resend_lost_steps|exact HP|apply steps_refl|]. intros _ s1 _ HS1 _.
        eapply rspec_tail; [eassumption..|apply IH|exact HP|exact HS1|intros; exact I].
    Qed.
    Lemma process_extensions_steps ack exts loss : rspec (process_extensions rec ack exts loss) any.
    Proof.
      revert loss. induction exts as [|e exts IH]; intros loss s HP; cbn [process_extensions].
      - wstep. split; [apply steps_refl|exact I].
      - destruct (is_sack _); [|apply IH; exact HP].
        eapply (wp_okp_bind _ _ _ any).
        + destruct (3 <=? _).
          * wstep; wstep; [intros; exact I|intros _]. eapply rspec_bind; [eassumption..|apply resend_lost_steps|exact HP|apply steps_refl|].
            intros _ s1 _ HS1 _. wstep. split; [assumption|exact I].
          * wstep. split; [apply steps_refl|exact I].
        + intros loss1 s1 HS1 _. do 2 wstep. eapply (wp_okp_bind _ _ _ any).
          * destruct (last_opt _).
            -- wstep. apply wp_unwrap; [intros bits _|intros; exact I]. eapply rspec_tail; [eassumption..|apply resend_gaps_steps|exact HP|exact HS1|intros; exact I].
            -- wstep. split; [assumption|exact I].
          * intros loss2 s2 HS2 _. eapply rspec_tail; [eassumption..|apply IH|exact HP|exact HS2|intros; exact I].
    Qed.
    Lemma note_ack_steps p src : G p src -> get_type p = Some PState -> rspec (note_ack (ack_nr p)) (fun _ s' => peer_acked G (s_last_acked (sk s'))).
    Proof.
      intros HG HT s HP. assert (HS : steps s s) by apply steps_refl. unfold note_ack. do 2 wstep. destruct (_ =? _) eqn:E.
      - wstep; wstep; [intros; exact I|intros _]. wstep. advk ltac:(apply k_dup_inc). split; [assumption|]. sproj. exists p, src. repeat split; auto. lia.
      - do 2 wstep. advk ltac:(eapply k_last_acked; eassumption). do 2 wstep. tick. wstep. sproj.
        advk ltac:(apply k_dup_one; apply clock_range). split; [assumption|]. sproj. now exists p, src.
    Qed.
    Lemma finish_state_steps ack exts loss s : pre s -> peer_acked G (s_last_acked (sk s)) -> wp (finish_state_packet rec ack exts loss) (okp s any) s.
    Proof.
      intros HP HPA. unfold finish_state_packet. do 2 wstep. eapply (wp_okp_bind _ _ _ any).
      - destruct (_ && _); [|wstep; split; [apply steps_refl|exact I]].
        wstep; wstep; [intros; exact I|intros _]. eapply rspec_tail; [eassumption..|apply resend_lost_steps|exact HP|apply steps_refl|intros; exact I].
      - intros _ s1 HS _. eapply (wp_okp_bind _ _ _ any).
        + destruct loss; wstep; [advk ltac:(apply k_halve)|]; split; try assumption; exact I.
        + intros _ s2 HS2 _. apply advance_window_steps; [exact HS2|]. exact (steps_acked _ _ HS2 HPA).
    Qed.
    Lemma okp_trans {A} s0 s1 (m : M A) V : steps s0 s1 -> wp m (okp s1 V) s1 -> wp m (okp s0 V) s1.
    Proof.
      intros HS H. eapply wp_conseq; [exact H|]. intros [a|[]] s' HH; cbn in *; auto; try (eapply steps_trans; eauto; fail).
      destruct HH. split; auto. eapply steps_trans; eauto.
    Qed.
    Lemma handle_state_steps p src : G p src -> get_type p = Some PState -> rspec (handle_state_packet rec p) any.
    Proof.
      intros HG HT s0 HP0. unfold handle_state_packet.
      eapply rspec_bind; [eassumption..|eapply note_ack_steps; eassumption|exact HP0|apply steps_refl|]. intros u s HS0 HS HA. cbv beta in HA.
      apply okp_trans; [exact HS|]. assert (HP : pre s) by (eapply steps_pre; eauto). do 2 wstep.
      eapply (wp_okp_bind _ _ _ any).
      { destruct (position _ _); [|wstep; split; [apply steps_refl|exact I]].
        eapply rspec_tail; [eassumption..|apply process_ack_steps|exact HP|apply steps_refl|intros; exact I]. }
      intros _ s2 HS2 _. do 2 wstep. cbv zeta. wstep. apply wp_unwrap; [intros exts _|intros; exact I].
      eapply rspec_bind; [eassumption..|apply process_extensions_steps|exact HP|exact HS2|]. intros loss' s3 _ HS3 _.
      apply okp_trans; [exact HS3|]. apply finish_state_steps; [eapply steps_pre; eauto|]. exact (steps_acked _ _ HS3 HA).
    Qed.

    Lemma u16_small' v : 0 <= v < 65536 -> u16 v = v. Proof. apply u16_small. Qed.
    Lemma reply_ok_none s : reply_ok None s. Proof. intros r [=]. Qed.
    Lemma prep_plain orig t s0 s : steps s0 s -> (t = PReset \/ t = PState) ->
      wp (r <- prepare_reply orig t ;; ret (Some r)) (okp s0 reply_ok) s.
    Proof.
      intros HS Ht. wstep. eapply wp_conseq; [apply prepare_keep|]. intros o s' (-> & r & -> & HR). wstep.
      split; [eapply steps_snoc; [exact HS|apply st_tick]|]. intros ? [= <-]. eapply plain_is_reply; [|exact HR]. tauto.
    Qed.
    Lemma dispatch_steps p ty src : G p src -> get_type p = Some ty -> rspec (dispatch rec p ty src) reply_ok.
    Proof.
      intros HG HT s HP. assert (HS : steps s s) by apply steps_refl. unfold dispatch. do 2 wstep.
      assert (Hother : wp (@throw_se (option packet) Other) (okp s reply_ok) s) by (wstep; exact HS).
      assert (Hreset : s_state (sk s) <> SynSent -> ty = PReset -> wp (upd_sk (ss_state ResetReceived) ;;; @throw_se (option packet) ConnectionReset) (okp s reply_ok) s).
      { intros HN ->. do 2 wstep. advk ltac:(eapply k_reset; eassumption). wstep. exact HS. }
      assert (Hsyn : wp (r <- prepare_reply p PReset ;; ret (Some r)) (okp s reply_ok) s) by (apply prep_plain; auto).
      assert (Hinv : wp (@throw_se (option packet) InvalidReply) (okp s reply_ok) s) by (wstep; exact HS).
      assert (Hdata : wp (handle_data_packet p) (okp s reply_ok) s) by (apply handle_data_steps; exact HP).
      assert (Hfin : s_state (sk s) = Connected \/ s_state (sk s) = FinSent -> ty = PFin -> wp (reply <- prepare_reply p PState ;;
          reply' <- attach_sack p reply ;; upd_sk (ss_state Closed) ;;; ret (Some reply')) (okp s reply_ok) s).
      { intros HST ->. wstep. eapply wp_conseq; [apply prepare_keep|]. intros o s' (-> & r & -> & HR). cbv beta iota. clear HS.
        eapply wp_okp_bind; [apply (attach_sack_steps p r PState); [apply ticked_steps|exact HR]|].
        intros r' s' HS' [-> HR']. do 2 wstep. advk ltac:(eapply k_fin; eassumption). wstep. split; [exact HS'|].
        intros ? [= <-]. apply (sacked_is_reply PState); [now left|]. exact HR'. }
      assert (Hstate : s_state (sk s) = Connected -> ty = PState -> wp (handle_state_packet rec p ;;; ret None) (okp s reply_ok) s).
      { intros _ ->. eapply rspec_bind; [eassumption..|eapply handle_state_steps; eassumption|exact HP|apply steps_refl|].
        intros _ s1 _ HS1 _. wstep. split; [exact HS1|apply reply_ok_none]. }
      destruct (s_state (sk s)) eqn:EST, ty; auto; try (apply Hreset; [discriminate|reflexivity]); try (apply prep_plain; auto; fail).
      - (* New, Syn *)
        do 2 wstep. sproj. apply wp_bind, wp_rand. intros sq Hsq. cbv beta iota. do 2 wstep. sproj. wstep; wstep; [intros; exact I|intros _].
        do 2 wstep. sproj.
        match goal with |- wp _ _ ?X => assert (HS2 : steps s X) end.
        { eapply steps_snoc; [eapply steps_snoc; [exact HS|apply st_rtick]|].
          eapply (st_sk G W (rticked s)), k_syn; try eassumption. subst sq. apply u16_range. }
        now apply prep_plain; [exact HS2|right].
      - (* SynSent, State *)
        do 2 wstep. sproj. wstep; wstep; [intros; exact I|intros _]. do 2 wstep. sproj.
        advk ltac:(eapply k_synack; eassumption). do 2 wstep. tick. do 2 wstep. sproj. advk ltac:(apply k_latime, clock_range). wstep. sproj.
        split; [exact HS|apply reply_ok_none].
      - (* FinSent, State *)
        wstep. destruct (ack_nr p =? s_seq_nr (sk s)) eqn:EA.
        + wstep. advk ltac:(eapply k_finack; eauto; lia). wstep. split; [exact HS|apply reply_ok_none].
        + wstep. wstep. split; [exact HS|apply reply_ok_none].
    Qed.

    Lemma valid_type p : valid p -> exists t, get_type p = Some t.
    Proof. intros H. apply parse_inv in H as [_ (h & exts & pl & _ & _ & ->)]. rewrite get_type_wire. eauto. Qed.

    Lemma handle_packet_steps p src : G p src -> rspec (handle_packet rec p src) reply_ok.
    Proof.
      intros HG s HP. assert (HS : steps s s) by apply steps_refl. unfold handle_packet, ack_in_order. do 2 wstep.
      match goal with |- wp _ _ ?X => assert (HS2 : steps s X) end.
      { destruct (_ =? 1) eqn:E; [|rewrite st_sk_same; exact HS]. eapply steps_snoc; [exact HS|]. eapply st_sk, k_ack; [eassumption|lia]. }
      clear HS. destruct (valid_type p (G_valid _ _ HG)) as [ty Hty]. unfold m_get_type. wstep. rewrite Hty. cbn [unwrap]. do 3 wstep.
      destruct (_ && _) eqn:EC.
      - apply prep_plain; auto.
      - do 2 wstep. rename HS2 into HS. advk ltac:(eapply k_wnd; eassumption). do 2 wstep. tick. do 2 wstep. sproj.
        advk ltac:(apply k_delay, abs_diff_range; [apply clock_range|apply timestamp_range]).
        eapply rspec_tail; [eassumption..|eapply dispatch_steps; eassumption|exact HP|exact HS|auto].
    Qed.

    Lemma fast_resend_steps s0 s : steps s0 s -> s_send_window (sk s) = [] -> s_state (sk s) <> New ->
      wp fast_resend_packet (okp s0 (fun _ s' => sk s' = sk s)) s.
    Proof.
      intros HS HW HN. unfold fast_resend_packet. do 2 wstep. tick. do 2 wstep.
      rewrite packet_new_wire, set_type_wire, set_ts_wire, set_tsd_wire, set_cid_wire, set_seq_wire, set_ack_wire.
      cbn [h_type h_cid h_ts h_tsd h_wnd h_seq h_ack].
      eapply wp_okp_bind; [apply (udp_send_steps _ _ _ _ (fun _ s' => sk s' = sk s)); [exact HS|apply em_fast; auto|reflexivity]|].
      intros r s1 HS1 E. wstep. split; auto.
    Qed.
    Lemma send_fin_steps s0 s : steps s0 s -> s_state (sk s) = FinSent -> wp send_fin (okp s0 (fun _ s' => sk s' = sk s)) s.
    Proof.
      intros HS HN. unfold send_fin. do 2 wstep. do 2 wstep. tick.
      rewrite packet_new_wire, set_cid_wire, set_seq_wire, set_ack_wire, set_ts_wire, set_type_wire.
      cbn [h_type h_cid h_ts h_tsd h_wnd h_seq h_ack].
      eapply wp_okp_bind; [apply (udp_send_steps _ _ _ _ (fun _ s' => sk s' = sk s)); [exact HS|apply em_fin; auto|reflexivity]|].
      intros r s1 HS1 E. eapply wp_okp_conseq; [apply try_steps; exact HS1|]. intros [] s2 _ [_ ->]. exact E.
    Qed.
    Lemma handle_receive_timeout_steps s0 s : pre s0 -> steps s0 s -> wp handle_receive_timeout (okp s0 any) s.
    Proof.
      intros HP HS. pose proof (steps_pre _ _ W_ts _ _ HS HP) as [_ HW].
      unfold handle_receive_timeout. do 2 wstep. wstep; wstep; [intros; exact I|intros _].
      do 2 wstep. advk ltac:(apply k_backoff). do 2 wstep. sproj. destruct (s_send_window (sk s)) as [|p rest] eqn:EW.
      - destruct (sstate_eqb _ FinSent) eqn:EF.
        + apply state_eqb_true in EF. eapply wp_okp_conseq; [apply send_fin_steps; [exact HS|exact EF]|intros; exact I].
        + destruct (sstate_eqb _ New) eqn:EN; cbn [negb]; [wstep; split; [exact HS|exact I]|].
          apply state_eqb_false in EN. unfold send_fast_resend_request.
          eapply wp_okp_bind; [apply fast_resend_steps; [exact HS|exact EW|exact EN]|]. intros u1 s1 HS1 E1; cbv beta in E1.
          eapply wp_okp_bind; [apply fast_resend_steps; [exact HS1|rewrite E1; exact EW|rewrite E1; exact EN]|]. intros u2 s2 HS2 E2; cbv beta in E2.
          eapply wp_okp_conseq; [apply fast_resend_steps; [exact HS2|rewrite E2, E1; exact EW|rewrite E2, E1; exact EN]|intros; exact I].
      - do 2 wstep. tick. cbv zeta. do 2 wstep. sproj. advk ltac:(eapply k_refresh; [exact EW|apply clock_range]).
        inversion HW; subst.
        match goal with |- wp (bind (udp_send ?d ?q) _) _ ?X => eapply (wp_okp_bind s0 _ _ any); [apply (udp_send_steps d q); [exact HS|apply (em_data G W (sk X)); auto|intros; exact I]|] end.
        intros r s1 HS1 _. eapply wp_okp_conseq; [apply try_steps; exact HS1|intros; exact I].
    Qed.

    (** What is read from the wire: the datagram, cut to 1520 bytes, parses to an allowed packet if at all. *)
    Definition got (x : list byte * addr) (_ : st) : Prop := forall p, packet_try_from (fst x) = Some (Ok p) -> G p (snd x).
    Lemma wait_datagram_steps : rspec wait_datagram got.
    Proof.
      intros s HP. unfold wait_datagram. do 2 wstep. apply (okp_loop _ _ _ (fun _ _ => True)); [apply steps_refl|exact I|].
      intros retries t HS _. do 2 wstep. destruct (_ <=? retries).
      - do 2 wstep. advk ltac:(apply k_giveup). wstep. exact HS.
      - pose proof (steps_pre _ _ W_ts _ _ HS HP) as [HE _].
        apply wp_bind, wp_udp_recv.
        + intros _. exact HS.
        + intros d src rest E. adv ltac:(eapply st_rx; exact E). wstep. split; [exact HS|]. intros p. cbn [fst snd]. apply HE.
          rewrite E. now left.
        + intros k rest E. adv ltac:(eapply st_rx; exact E). destruct (is_timeout k); [|wstep; exact HS].
          eapply wp_okp_bind; [apply handle_receive_timeout_steps; [exact HP|exact HS]|]. intros _ s1 HS1 _. wstep. split; [exact HS1|exact I].
        + intros rest E. adv ltac:(eapply st_rx; exact E). exact HS.
    Qed.

    Lemma process_datagram_steps n b src : (forall p, packet_try_from b = Some (Ok p) -> G p src) -> rspec (process_datagram rec n b src) any.
    Proof.
      intros HG s HP. unfold process_datagram. wstep. apply wp_unwrap; [|intros; exact I]. intros [p|e] Hp.
      - eapply rspec_bind; [eassumption..|apply handle_packet_steps, HG, Hp|exact HP|apply steps_refl|]. intros reply s1 _ HS1 HR.
        eapply (wp_okp_bind _ _ _ any).
        { destruct reply as [r|]; [|wstep; split; [exact HS1|exact I]].
          eapply (wp_okp_bind _ _ _ any); [apply udp_send_steps; [exact HS1| |intros; exact I]|].
          - eapply is_reply_emits; [now apply HR|apply HG, Hp].
          - intros r' s2 HS2 _. eapply wp_okp_conseq; [apply try_steps; exact HS2|intros; exact I]. }
        intros _ s2 HS2 _. unfold m_get_type. destruct (valid_type p (G_valid _ _ (HG _ Hp))) as [ty Hty]. wstep. rewrite Hty. cbn [unwrap]. do 3 wstep.
        eapply (wp_okp_bind _ _ _ any).
        { destruct (_ && _) eqn:EC; [|wstep; split; [exact HS2|exact I]]. apply andb_prop in EC as [E1 E2]. apply ptype_eqb_true in E1. subst ty.
          unfold insert_into_buffer. wstep. rename HS2 into HS. advk ltac:(eapply k_insert; [apply HG, Hp|exact Hty|lia]). split; [exact HS|exact I]. }
        intros _ s3 HS3 _. eapply rspec_bind; [eassumption..|apply flush_incoming_steps|exact HP|exact HS3|]. intros d s4 _ HS4 _. wstep. split; [exact HS4|exact I].
      - do 3 wstep. split; [apply steps_refl|exact I].
    Qed.
    Lemma recv_body_steps n : rspec (recv_body rec n) any.
    Proof.
      intros s HP. unfold recv_body. eapply rspec_bind; [eassumption..|apply wait_datagram_steps|exact HP|apply steps_refl|].
      intros [b src] s1 _ HS1 HG. eapply rspec_tail; [eassumption..|apply process_datagram_steps; exact HG|exact HP|exact HS1|intros; exact I].
    Qed.
  End Rec.

  Lemma recv_fuel_steps fuel n : rspec (recv_fuel fuel n) any.
  Proof.
    revert n; induction fuel as [|f IH]; intros n; cbn [recv_fuel].
    - intros s HP. wstep. apply steps_refl.
    - apply recv_body_steps. exact IH.
  Qed.
  Lemma recv_steps n : rspec (recv n) any.
  Proof. intros s HP. unfold recv. do 2 wstep. now apply recv_fuel_steps. Qed.
End SP.
