(** Invariants of every reachable socket. *)
From Verif Require Export Frame.
From Coq Require Export Sorted.
Require Import ZifyBool ZifyNat ZifyN.
Local Open Scope Z_scope.
Ltac Zify.zify_post_hook ::= Z.to_euclidean_division_equations.

(** Buffer and acknowledgement numbers after a flush: unchanged or the head removed. *)
Lemma flush_cases n k : let k' := snd (flush_sk n k) in
  (s_incoming_buffer k' = s_incoming_buffer k /\ s_ack_nr k' = s_ack_nr k /\ s_last_dropped k' = s_last_dropped k) \/
  (exists p rest, s_incoming_buffer k = p :: rest /\ s_incoming_buffer k' = rest /\ s_ack_nr k' = seq_nr p /\ s_last_dropped k' = seq_nr p).
Proof.
  cbv zeta. unfold flush_sk. destruct (s_pending_data k) as [|b pd].
  - destruct (s_incoming_buffer k) as [|p rest] eqn:EB; [left; auto|]. destruct (_ || _); [|left; auto].
    destruct (payload p); [|left; auto]. cbn [snd]. cbv zeta. destruct (_ =? _)%nat; [|left; auto].
    right. exists p, rest. unfold advance_socket. rewrite EB. auto.
  - cbn [snd]. cbv zeta. destruct (_ =? _)%nat; [|left; auto]. unfold advance_socket. sproj.
    destruct (s_incoming_buffer k) as [|p rest] eqn:EB; [left; auto|]. right. exists p, rest. auto.
Qed.

(** ** Ranges *)
Record ranges (k : socket) : Prop := {
  r_scid : 0 <= s_sender_connection_id k < 65536;
  r_rcid : 0 <= s_receiver_connection_id k < 65536;
  r_seq : 0 <= s_seq_nr k < 65536;
  r_ack : 0 <= s_ack_nr k < 65536;
  r_dup : 0 <= s_duplicate_ack_count k < 4294967296;
  r_lacked : 0 <= s_last_acked k < 65536;
  r_ldrop : 0 <= s_last_dropped k < 65536;
  r_rtt : 0 <= s_rtt k <= 4294967;
  r_var : 0 <= s_rtt_variance k <= 4294967;
  r_curr : 0 <= s_curr_window k < 4294967296;
  r_rwnd : 0 <= s_remote_wnd_size k < 4294967296;
  r_tdelay : 0 <= s_their_delay k < 4294967296;
  r_cto : 0 <= s_congestion_timeout k < 18446744073709551616;
  r_cwnd : 1400 <= s_cwnd k < 4294967296;
  r_retries : 0 <= s_max_retries k < 4294967296;
  r_base : Forall (fun d => -4294967296 < d < 4294967296) (s_base_delays k);
  r_current : Forall (fun x => -4294967296 < snd x < 4294967296) (s_current_delays k)
}.

Lemma seq_ids_range id : 0 <= id < 65536 -> 0 <= fst (sequential_identifiers id) < 65536 /\ 0 <= snd (sequential_identifiers id) < 65536 /\
  snd (sequential_identifiers id) = fst (sequential_identifiers id) + 1.
Proof. intros H. unfold sequential_identifiers. change (2 ^ 16) with 65536. destruct (_ <? _) eqn:E; cbn [fst snd]; lia. Qed.
Lemma init_ranges k : init_sk k -> ranges k.
Proof.
  intros H; destruct H; pose proof (seq_ids_range (u16 id) (u16_range id)) as (H1 & H2 & _);
    constructor; sproj; cbn [fresh_socket s_sender_connection_id s_receiver_connection_id s_seq_nr s_ack_nr s_duplicate_ack_count s_last_acked s_last_dropped
      s_rtt s_rtt_variance s_curr_window s_remote_wnd_size s_their_delay s_congestion_timeout s_cwnd s_max_retries s_base_delays s_current_delays];
    unfold INITIAL_CONGESTION_TIMEOUT, INIT_CWND, MSS, MAX_RETRANSMISSION_RETRIES; try lia; constructor.
Qed.

Lemma i32_range_small v : -2147483648 <= v < 2147483648 -> i32 v = v.
Proof.
  intros H. unfold i32, swrap. cbv zeta. change (2 ^ 32) with 4294967296. change (2 ^ (32 - 1)) with 2147483648.
  destruct (v mod 4294967296 <? 2147483648) eqn:E; lia.
Qed.
Lemma rto_values d k : 0 <= d <= 4294967 -> 0 <= s_rtt k <= 4294967 -> 0 <= s_rtt_variance k <= 4294967 ->
  let k' := rto_sk d k in
  s_rtt_variance k' = s_rtt_variance k + Z.quot (Z.abs (s_rtt k - d) - s_rtt_variance k) 4 /\
  s_rtt k' = s_rtt k + Z.quot (d - s_rtt k) 8 /\
  s_congestion_timeout k' = Z.min (Z.max (s_rtt k' + 4 * s_rtt_variance k') 500) 60000 /\
  0 <= s_rtt k' <= 4294967 /\ 0 <= s_rtt_variance k' <= 4294967.
Proof.
  intros Hd Hr Hv. cbv zeta. unfold rto_sk. cbv zeta. sproj.
  rewrite (i32_range_small (s_rtt k - d)) by lia. rewrite (i32_range_small (Z.abs _)) by lia.
  rewrite (i32_range_small (Z.abs _ - _)) by lia. rewrite (i32_range_small (d - _)) by lia.
  assert (H1 : 0 <= s_rtt_variance k + Z.quot (Z.abs (s_rtt k - d) - s_rtt_variance k) 4 <= 4294967) by lia.
  assert (H2 : 0 <= s_rtt k + Z.quot (d - s_rtt k) 8 <= 4294967) by lia.
  rewrite (i32_range_small (s_rtt_variance k + _)) by lia. rewrite (i32_range_small (s_rtt k + _)) by lia.
  rewrite (i32_range_small (_ * 4)) by lia. rewrite (i32_range_small (_ + _ * 4)) by lia.
  unfold MIN_CONGESTION_TIMEOUT, MAX_CONGESTION_TIMEOUT. rewrite u64_small by lia. repeat split; try lia.
Qed.

Lemma f_to_u32_range f : 0 <= f_to_u32 f < 4294967296.
Proof. unfold f_to_u32, f_to_int. change (2 ^ 32 - 1) with 4294967295. destruct f as [s|s| |s m e]; try (destruct s); lia. Qed.

Lemma Forall_list_set {A} (P : A -> Prop) i x l : P x -> Forall P l -> Forall P (list_set i x l).
Proof. revert i; induction l as [|h t IH]; intros [|i] Hx H; cbn; inversion H; subst; auto. Qed.
Lemma Forall_skipn {A} (P : A -> Prop) n l : Forall P l -> Forall P (skipn n l).
Proof. intros H. rewrite <- (firstn_skipn n l) in H. apply Forall_app in H. tauto. Qed.
Lemma Forall_drop_old (P : Z * Z -> Prop) now r l : Forall P l -> Forall P (drop_old now r l).
Proof. induction l as [|[t d] l IH]; cbn; intros H; auto. destruct (_ <? _); auto. inversion H; auto. Qed.

Ltac rsolve := first [assumption | apply seq_nr_range | apply ack_nr_range | apply cid_range | apply wnd_range | apply u16_range | apply u32_range | apply u64_range | lia].
Lemma skstep_ranges k k' : skstep G0 k k' -> ranges k -> ranges k'.
Proof.
  intros H HR.
  destruct H; try (destruct HR; constructor; sproj; rsolve).
  - destruct HR; constructor; sproj; unfold MSS; rsolve.
  - destruct HR; constructor; frame; auto. unfold base_delay_socket. destruct (_ || _).
    + cbv zeta. sproj. apply Forall_app. split; [destruct (_ =? _)%nat; auto using Forall_skipn|constructor; [lia|constructor]].
    + cbv zeta. destruct (_ <? _); [sproj; apply Forall_list_set; [lia|auto]|auto].
  - destruct HR; constructor; unfold current_delay_socket; sproj; auto. apply Forall_app. split; [now apply Forall_drop_old|constructor; [cbn; lia|constructor]].
  - destruct HR; constructor; sproj; auto. unfold grown_cwnd. cbv zeta.
    match goal with |- context[f_to_u32 ?f] => pose proof (f_to_u32_range f) end.
    unfold MIN_CWND, MSS in *. lia.
  - destruct HR. pose proof (rto_values d k H r_rtt0 r_var0) as (E1 & E2 & E3 & E4 & E5). constructor; frame; auto. cbv zeta in E3. rewrite E3. lia.
  - destruct HR; constructor; sproj; auto. unfold MIN_CWND, MSS. lia.
  - destruct HR. pose proof (flush_cases n k) as HF. cbv zeta in HF.
    constructor; frame; auto; destruct HF as [(E1 & E2 & E3)|(p & rest & E0 & E1 & E2 & E3)]; rewrite ?E2, ?E3; auto using seq_nr_range.
Qed.

Lemma ostep_ranges s s' : ostep0 s s' -> ranges (sk s) -> ranges (sk s').
Proof.
  intros H HR. destruct H; try exact HR.
  - destruct H; try exact HR. eapply skstep_ranges; eauto.
  - unfold queue_chunk. destruct HR. constructor; sproj; auto using u16_range.
  - destruct HR. constructor; sproj; auto.
  - destruct HR. constructor; sproj; auto using u32_range.
  - destruct HR. constructor; sproj; auto.
  - destruct HR. constructor; sproj; auto.
Qed.
Lemma reachable_ranges s : reachable s -> ranges (sk s).
Proof. intros H. apply (reachable_inv ranges); auto using init_ranges. eauto using ostep_ranges. Qed.

(** ** C32: bytes in flight *)
Definition inflight (k : socket) : Prop := s_curr_window k = u32 (sum_len (s_send_window k)).
Lemma u32_add_u32_l a b : u32 (u32 a + b) = u32 (a + b). Proof. rewrite !u32_eq. now rewrite Zplus_mod_idemp_l. Qed.
Lemma u32_add_u32_r a b : u32 (a + u32 b) = u32 (a + b). Proof. rewrite !u32_eq. now rewrite Zplus_mod_idemp_r. Qed.
Lemma set_field_length off n v p : (off + n <= length p)%nat -> length (set_field off n v p) = length p.
Proof. intros H. unfold set_field. rewrite !app_length, firstn_length, skipn_length, be_encode_length. lia. Qed.
Lemma W0_length p : W0 p -> (20 <= length p)%nat.
Proof. intros (h & pl & -> & _). rewrite wire_length. lia. Qed.
Lemma ostep_inflight s s' : ostep0 s s' -> wins_ok (sk s) -> inflight (sk s) -> inflight (sk s').
Proof.
  unfold inflight. intros H [HW _] HI. destruct H; try exact HI.
  - destruct H; try exact HI. destruct H; try exact HI; frame; try exact HI.
    + rewrite HI, H, !sum_len_cons. rewrite H in HW. inversion HW; subst. unfold packet_len, zlen, set_timestamp. rewrite set_field_length; [reflexivity|].
      apply W0_length in H3. lia.
    + rewrite HI, u32_sub_u32. f_equal. rewrite <- (firstn_skipn (pos + 1) (s_send_window k)) at 1. rewrite sum_len_app. lia.
  - sproj. rewrite HI, sum_len_app, sum_len_cons. change (sum_len []) with 0. rewrite u32_add_u32_r, u32_add_u32_l. f_equal. lia.
Qed.
Lemma reachable_inflight s : reachable s -> inflight (sk s).
Proof.
  intros H. apply (reachable_inv inflight); auto.
  - intros k []; reflexivity.
  - intros. eapply ostep_inflight; eauto.
Qed.

(** ** C15: the reorder buffer *)
Definition seq_lt (p q : packet) : Prop := seq_nr p < seq_nr q.
Definition buffered (p : packet) : Prop := valid p /\ get_type p = Some PData.
Definition buffer_ok (buf : list packet) : Prop := StronglySorted seq_lt buf /\ Forall buffered buf.

Lemma sorted_app_inv {A} (R : A -> A -> Prop) a b : StronglySorted R (a ++ b) -> StronglySorted R a /\ StronglySorted R b /\ forall x y, In x a -> In y b -> R x y.
Proof.
  induction a as [|x a IH]; cbn; intros H.
  - split; [constructor|]. split; auto. intros x y [].
  - inversion H as [|? ? H1 H2]; subst. destruct (IH H1) as (Ha & Hb & Hab). rewrite Forall_forall in H2. split.
    + constructor; auto. apply Forall_forall. intros y Hy. apply H2, in_or_app. auto.
    + split; auto. intros u v [<-|Hu] Hv; [apply H2, in_or_app; auto|auto].
Qed.
Lemma sorted_app_intro {A} (R : A -> A -> Prop) a b : StronglySorted R a -> StronglySorted R b -> (forall x y, In x a -> In y b -> R x y) -> StronglySorted R (a ++ b).
Proof.
  induction a as [|x a IH]; cbn; intros Ha Hb Hab; auto. inversion Ha as [|? ? H1 H2]; subst. constructor.
  - apply IH; auto.
  - apply Forall_app. split; auto. apply Forall_forall. intros y Hy. apply Hab; auto.
Qed.
Lemma filter_all {A} (f : A -> bool) l : (forall x, In x l -> f x = true) -> filter f l = l.
Proof. induction l as [|x l IH]; cbn; intros H; auto. rewrite H by auto. f_equal. auto. Qed.
Lemma filter_none {A} (f : A -> bool) l : (forall x, In x l -> f x = false) -> filter f l = [].
Proof. induction l as [|x l IH]; cbn; intros H; auto. rewrite H by auto. auto. Qed.

(** A sorted buffer splits at any sequence number. *)
Lemma sorted_split n buf : StronglySorted seq_lt buf -> exists a b, buf = a ++ b /\
  (forall q, In q a -> seq_nr q < n) /\ (forall q, In q b -> n <= seq_nr q).
Proof.
  induction buf as [|q buf IH]; intros H.
  - exists [], []. split; [reflexivity|]. split; intros q [].
  - inversion H as [|? ? H1 H2]; subst. destruct (Z_lt_dec (seq_nr q) n) as [L|L].
    + destruct (IH H1) as (a & b & -> & Ha & Hb). exists (q :: a), b. split; [reflexivity|]. split; [intros x [<-|Hx]; auto|auto].
    + exists [], (q :: buf). split; [reflexivity|]. split; [intros x []|]. intros x [<-|Hx]; [lia|]. rewrite Forall_forall in H2. specialize (H2 x Hx). unfold seq_lt in H2. lia.
Qed.
Lemma last_opt_snoc {A} (l : list A) x : last_opt (l ++ [x]) = Some x.
Proof. unfold last_opt. rewrite app_length. cbn [length]. replace (length l + 1 - 1)%nat with (length l) by lia. apply nth_error_app_at. Qed.

Lemma insert_packet_spec p buf : StronglySorted seq_lt buf -> exists a b, buf = a ++ b /\
  (forall q, In q a -> seq_nr q < seq_nr p) /\ (forall q, In q b -> seq_nr p <= seq_nr q) /\
  insert_packet p buf = match b with q :: _ => if seq_nr q =? seq_nr p then buf else a ++ p :: b | [] => a ++ [p] end.
Proof.
  intros HS. destruct (sorted_split (seq_nr p) buf HS) as (a & b & -> & Ha & Hb). exists a, b. split; [reflexivity|]. split; [exact Ha|]. split; [exact Hb|].
  unfold insert_packet.
  assert (HF : filter (fun q => seq_nr q <? seq_nr p) (a ++ b) = a).
  { rewrite filter_app, filter_all, filter_none, app_nil_r; auto.
    - intros x Hx. specialize (Hb x Hx). lia.
    - intros x Hx. specialize (Ha x Hx). lia. }
  cbv zeta. rewrite HF. destruct b as [|q b].
  - rewrite app_nil_r. destruct (match last_opt a with Some q => seq_nr q <? seq_nr p | None => false end); [reflexivity|].
    rewrite (proj2 (nth_error_None a (length a))) by lia. now rewrite firstn_all, skipn_all.
  - assert (HL : match last_opt (a ++ q :: b) with Some q0 => seq_nr q0 <? seq_nr p | None => false end = false).
    { destruct (exists_last (l := q :: b)) as (b' & x & E); [discriminate|]. rewrite E, app_assoc, last_opt_snoc.
      assert (In x (q :: b)) by (rewrite E; apply in_or_app; right; now left). specialize (Hb x H). lia. }
    rewrite HL, nth_error_app_at. destruct (seq_nr q =? seq_nr p); cbn [negb]; [reflexivity|].
    now rewrite firstn_app_eq, skipn_app_eq by reflexivity.
Qed.
Lemma insert_packet_ok p buf : buffer_ok buf -> buffered p -> buffer_ok (insert_packet p buf).
Proof.
  intros [HS HF] Hp. destruct (insert_packet_spec p buf HS) as (a & b & E & Ha & Hb & ->). destruct b as [|q b].
  - rewrite app_nil_r in E. subst buf. split; [|apply Forall_app; auto]. apply sorted_app_intro; auto.
    + repeat constructor.
    + intros x y Hx [<-|[]]. now apply Ha.
  - destruct (seq_nr q =? seq_nr p) eqn:EQ; [split; assumption|]. subst buf.
    apply sorted_app_inv in HS as (S1 & S2 & S3). apply Forall_app in HF as [F1 F2].
    split; [|apply Forall_app; split; auto]. apply sorted_app_intro; auto.
    + constructor; auto. apply Forall_forall. intros x Hx. pose proof (Hb x Hx). unfold seq_lt.
      destruct Hx as [<-|Hx]; [lia|]. inversion S2 as [|? ? _ S2']; subst. rewrite Forall_forall in S2'. specialize (S2' x Hx). unfold seq_lt in S2'.
      specialize (Hb q (or_introl eq_refl)). lia.
    + intros x y Hx [<-|Hy]; [now apply Ha|now apply S3].
Qed.
Definition buf_inv (k : socket) : Prop := buffer_ok (s_incoming_buffer k).
Lemma buffer_ok_tail p buf : buffer_ok (p :: buf) -> buffer_ok buf.
Proof. intros [H1 H2]. inversion H1; inversion H2; subst. split; auto. Qed.
Lemma ostep_buffer s s' : ostep0 s s' -> buf_inv (sk s) -> buf_inv (sk s').
Proof.
  unfold buf_inv. intros H HI. destruct H; try exact HI. destruct H; try exact HI. destruct H; sproj; frame; try exact HI.
  - apply insert_packet_ok; [exact HI|]. split; auto.
  - pose proof (flush_cases n k) as HF. cbv zeta in HF. destruct HF as [(E1 & E2 & E3)|(p & rest & E0 & E1 & E2 & E3)]; rewrite E1; auto.
    sproj_in HI. rewrite E0 in HI. now apply buffer_ok_tail in HI.
Qed.
Lemma reachable_buffer s : reachable s -> buf_inv (sk s).
Proof.
  intros H. apply (reachable_inv buf_inv); auto.
  - intros k []; split; constructor.
  - intros. eapply ostep_buffer; eauto.
Qed.
Lemma sorted_bounded buf : StronglySorted seq_lt buf -> forall lo hi, (forall p, In p buf -> lo <= seq_nr p < hi) -> Z.of_nat (length buf) <= Z.max 0 (hi - lo).
Proof.
  induction 1 as [|p buf HS IH HF]; intros lo hi HR; [cbn; lia|].
  pose proof (HR p (or_introl eq_refl)) as Hp. cbn [length].
  assert (Z.of_nat (length buf) <= Z.max 0 (hi - (seq_nr p + 1))); [|lia].
  apply IH. intros q Hq. specialize (HR q (or_intror Hq)). rewrite Forall_forall in HF. specialize (HF q Hq). unfold seq_lt in HF. lia.
Qed.
Lemma buffer_bounded s : reachable s -> Z.of_nat (length (s_incoming_buffer (sk s))) <= 65536.
Proof.
  intros H. apply reachable_buffer in H as [HS _]. pose proof (sorted_bounded _ HS 0 65536 (fun p _ => seq_nr_range p)). lia.
Qed.

(** ** C41: base delays *)
Lemma ostep_base s s' : ostep0 s s' -> (length (s_base_delays (sk s)) <= 10)%nat -> (length (s_base_delays (sk s')) <= 10)%nat.
Proof.
  intros H HI. destruct H; try exact HI. destruct H; try exact HI. destruct H; sproj; frame; try exact HI.
  unfold base_delay_socket. destruct (_ || _).
  - cbv zeta. sproj. rewrite app_length. cbn [length]. sproj_in HI. destruct (length (s_base_delays k) =? BASE_HISTORY)%nat eqn:E; unfold BASE_HISTORY in E; [rewrite skipn_length|]; lia.
  - cbv zeta. destruct (_ <? _); sproj; [rewrite list_set_length|]; exact HI.
Qed.
Lemma reachable_base s : reachable s -> (length (s_base_delays (sk s)) <= 10)%nat.
Proof.
  intros H. apply (reachable_inv (fun k => (length (s_base_delays k) <= 10)%nat)); auto.
  - intros k []; cbn; lia.
  - intros. eapply ostep_base; eauto.
Qed.

(** ** C50: life cycle *)
Inductive transition : sstate -> sstate -> Prop :=
| tr_accept : transition New Connected            (* SYN received *)
| tr_connect : transition SynSent Connected       (* SYN acknowledged *)
| tr_fin x : x = Connected \/ x = FinSent -> transition x Closed  (* FIN received, or our FIN acknowledged *)
| tr_timeout x : transition x Closed              (* retries exhausted *)
| tr_reset x : x <> SynSent -> transition x ResetReceived
| tr_close x : x <> New -> x <> SynSent -> transition x FinSent.  (* close called *)
Lemma skstep_transition k k' : skstep G0 k k' -> s_state k' = s_state k \/ transition (s_state k) (s_state k').
Proof.
  intros H; destruct H; sproj; frame; auto using transition; try (rewrite H1; auto using transition).
Qed.
Lemma ostep_transition s s' : ostep0 s s' -> s_state (sk s') = s_state (sk s) \/ transition (s_state (sk s)) (s_state (sk s')).
Proof.
  intros H; destruct H; sproj; auto. destruct H; auto.
  - now apply skstep_transition.
  - destruct H0. right. now constructor.
Qed.
