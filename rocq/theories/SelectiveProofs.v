(** Lemmas for C68: what a selective acknowledgement makes the sender retransmit. *)
From Verif Require Export SendProofs.
Require Import ZifyBool ZifyNat ZifyN.
Local Open Scope Z_scope.
Ltac Zify.zify_post_hook ::= Z.div_mod_to_equations.

(** ** Specification *)
(** Bit [i] of a bitmap. *)
Definition bitmap_bit (d : list byte) (i : nat) : bool := Z.testbit (b2z (nth (i / 8) d x00)) (Z.of_nat (i mod 8)).
(** The numbers a bitmap after acknowledgement [ack] reports missing, up to the last packet in flight. *)
Definition missing (ack : Z) (d : list byte) (last : Z) : list Z :=
  filter (fun n => n <? last) (map (fun i => ack + 2 + Z.of_nat i) (filter (fun i => negb (bitmap_bit d i)) (seq 0 (8 * length d)))).
(** How many bits are set. *)
Definition set_bits (d : list byte) : nat := length (filter (bitmap_bit d) (seq 0 (8 * length d))).
(** The packet in flight with number [n], if any. *)
Definition in_flight (w : list packet) (n : Z) : list packet :=
  match find (fun q => seq_nr q =? n) w with Some q => [q] | None => [] end.
Definition last_number (w : list packet) (n : Z) : Prop := exists w' q, w = w' ++ [q] /\ seq_nr q = n.
(** Copies of the packets [qs], only timestamps differing, all addressed to [a]. *)
Definition copies (a : addr) (qs : list packet) (xs : list (addr * packet)) : Prop :=
  Forall2 (fun q x => fst x = a /\ copy_of q (snd x)) qs xs.

(** ** One retransmission *)
Lemma find_split {A} (f : A -> bool) l q : find f l = Some q -> exists a b, l = a ++ q :: b /\ f q = true /\ Forall (fun x => f x = false) a.
Proof.
  induction l as [|x l IH]; [discriminate|]. cbn [find]. destruct (f x) eqn:E; intros H.
  - injection H as ->. exists [], l. auto.
  - destruct (IH H) as (a & b & -> & H1 & H2). exists (x :: a), b. auto.
Qed.
Definition resent (s s' : st) (qs : list packet) : Prop :=
  sk s' = sk s /\ w_in (wd s') = w_in (wd s) /\ w_chk (wd s') = w_chk (wd s) /\ w_send (wd s') = w_send (wd s) /\
  exists xs, w_sent (wd s') = w_sent (wd s) ++ xs /\ copies (s_connected_to (sk s)) qs xs.
Lemma resent_nil s : resent s s [].
Proof. repeat split. exists []. rewrite app_nil_r. split; [reflexivity|constructor]. Qed.
Lemma resent_trans s1 s2 s3 a b : resent s1 s2 a -> resent s2 s3 b -> resent s1 s3 (a ++ b).
Proof.
  intros (A1 & A2 & A3 & A4 & x & A5 & A6) (B1 & B2 & B3 & B4 & y & B5 & B6). repeat split; try congruence.
  exists (x ++ y). rewrite app_assoc, <- A5. split; [exact B5|]. apply Forall2_app; [exact A6|]. now rewrite A1 in B6.
Qed.
Definition gate_is_open (s : st) : Prop := s_curr_window (sk s) < limit (sk s).
Definition near (n : Z) (k : socket) : Prop := 0 <= n - s_last_acked k <= 32768.
Lemma transmit_sends_ws p s s' r : transmit p s = (r, s') -> w_send (wd s') = w_send (wd s).
Proof.
  unfold transmit, bind at 1, get_sk at 1. destruct (_ <? _); [intros H; now injection H as <- <-|]. unfold bind at 1, now_microseconds. cbv zeta. fold (ticked s).
  unfold bind, udp_send. destruct (w_send _ _); cbn; intros H; injection H as <- <-; reflexivity.
Qed.
Lemma resend_number rec n s : gate_is_open s -> all_sent s -> near n (sk s) -> exists s', resend_lost_packet rec n s = (Ret tt, s') /\ resent s s' (in_flight (s_send_window (sk s)) n).
Proof.
  intros HG HA HN. unfold in_flight. destruct (find _ _) as [q|] eqn:EF.
  - destruct (find_split _ _ _ EF) as (w1 & w2 & HW & Hq & HF).
    unfold resend_lost_packet, bind at 1, get_sk at 1. rewrite HW, position_app; [|exact Hq|].
    2:{ intros y Hy. rewrite Forall_forall in HF. now apply HF. }
    rewrite nth_error_app2, Nat.sub_diag by lia. cbn [nth_error unwrap]. unfold bind, ret at 1. unfold ignore_result. rewrite send_packet_split. unfold bind. rewrite gate_open by exact HG.
    destruct (transmit_sends q (ticked s)) as (s' & E & K & L & C).
    + unfold ahead. change (sk (ticked s)) with (sk s). unfold near in HN. replace (seq_nr q) with n by lia. rewrite !u16_eq. lia.
    + apply all_sent_ok. exact HA.
    + rewrite E. exists s'. split; [reflexivity|]. destruct L as [L1 L2]. repeat split; auto.
      * rewrite (transmit_sends_ws _ _ _ _ E). reflexivity.
      * eexists. split; [exact L1|]. constructor; [|constructor]. split; [reflexivity|]. do 2 eexists. reflexivity.
  - exists s. split; [|apply resent_nil]. apply resend_absent. intros HI. apply in_map_iff in HI as (q & HQ & HI). pose proof (find_none _ _ EF q HI). lia.
Qed.
Lemma resent_open s s' qs : resent s s' qs -> gate_is_open s -> all_sent s -> gate_is_open s' /\ all_sent s'.
Proof. intros (A1 & _ & _ & A4 & _) H1 H2. unfold gate_is_open, all_sent. rewrite A1, A4. auto. Qed.

(** ** The gaps *)
Lemma filter_lt_none last : forall l, (forall n, In n l -> last <= n) -> filter (fun n => n <? last) l = [].
Proof. intros l H. induction l as [|x l IH]; [reflexivity|]. cbn [filter]. pose proof (H x (or_introl eq_refl)). replace (x <? last) with false by lia. apply IH. intros n Hn. apply H. now right. Qed.
Fixpoint gaps (first : Z) (bits : list bool) : list Z :=
  match bits with [] => [] | b :: rest => (if b then [] else [first]) ++ gaps (first + 1) rest end.
Lemma gaps_above bits : forall f n, In n (gaps f bits) -> f <= n.
Proof. induction bits as [|b r IH]; intros f n H; [contradiction|]. cbn [gaps] in H. apply in_app_or in H as [H|H]; [destruct b; [contradiction|destruct H as [<-|[]]; lia]|]. apply IH in H. lia. Qed.
Lemma resend_gaps_run rec ack last : 0 <= ack -> forall bits idx s loss, ack + 2 + Z.of_nat idx + Z.of_nat (length bits) <= 65536 -> gate_is_open s -> all_sent s -> s_last_acked (sk s) = ack ->
  Z.of_nat idx + Z.of_nat (length bits) <= 4096 ->
  let ns := filter (fun n => n <? last) (gaps (ack + 2 + Z.of_nat idx) bits) in
  exists s', resend_gaps rec ack idx bits last loss s = (Ret (loss || negb (is_nil ns)), s') /\ resent s s' (flat_map (in_flight (s_send_window (sk s))) ns).
Proof.
  intros Hack bits. induction bits as [|b r IH]; intros idx s loss HB HG HA HL HI; cbv zeta.
  - exists s. cbn. rewrite orb_false_r. split; [reflexivity|apply resent_nil].
  - cbn [length] in *. cbn [resend_gaps gaps]. destruct b.
    + cbn [app]. destruct (IH (S idx) s loss ltac:(lia) HG HA HL ltac:(lia)) as (s' & E & HR). exists s'.
      replace (ack + 2 + Z.of_nat idx + 1) with (ack + 2 + Z.of_nat (S idx)) by lia. auto.
    + unfold bind at 1. unfold ck_u16 at 1. rewrite arith_fits by (try (apply u16_small); lia). unfold bind at 1. rewrite (u16_small (Z.of_nat idx)) by lia. unfold ck_u16 at 1. rewrite arith_fits by (try (apply u16_small); lia).
      cbn [app filter]. destruct (ack + 2 + Z.of_nat idx <? last) eqn:EL.
      * destruct (resend_number rec (ack + 2 + Z.of_nat idx) s HG HA ltac:(unfold near; lia)) as (s1 & E1 & R1). unfold bind at 1. rewrite E1.
        destruct (resent_open _ _ _ R1 HG HA) as [HG1 HA1]. destruct (IH (S idx) s1 true ltac:(lia) HG1 HA1) as (s' & E & HR); [destruct R1 as (-> & _); exact HL|lia|].
        exists s'. replace (ack + 2 + Z.of_nat idx + 1) with (ack + 2 + Z.of_nat (S idx)) by lia. cbn [is_nil negb flat_map]. rewrite orb_true_r. rewrite E. split; [reflexivity|].
        eapply resent_trans; [exact R1|]. destruct R1 as (<- & _). exact HR.
      * exists s. rewrite (filter_lt_none last (gaps (ack + 2 + Z.of_nat idx + 1) r)) by (intros n Hn; apply gaps_above in Hn; lia).
        cbn [is_nil negb flat_map]. rewrite orb_false_r. split; [reflexivity|apply resent_nil].
Qed.

Lemma bit_string_map d : bit_string d = map (bitmap_bit d) (seq 0 (8 * length d)).
Proof.
  apply (nth_ext _ _ false (bitmap_bit d 0)); [rewrite map_length, seq_length; apply bit_string_length|]. intros k HK. rewrite bit_string_length in HK.
  rewrite (map_nth (bitmap_bit d)), seq_nth by lia. cbn [Nat.add]. destruct (nth_error d (k / 8)) as [b|] eqn:E.
  - unfold bitmap_bit. rewrite (nth_error_nth _ _ _ E). apply nth_error_nth. now apply bit_string_nth.
  - apply nth_error_None in E. lia.
Qed.
Lemma gaps_map (g : nat -> bool) n : forall j f, gaps f (map g (seq j n)) = map (fun i => f + Z.of_nat i - Z.of_nat j) (filter (fun i => negb (g i)) (seq j n)).
Proof.
  induction n as [|n IH]; intros j f; [reflexivity|]. cbn [seq map gaps filter]. rewrite IH. destruct (g j); cbn [negb app map].
  - apply map_ext. intros i. lia.
  - f_equal; [lia|]. apply map_ext. intros i. lia.
Qed.
Lemma missing_gaps ack d last : missing ack d last = filter (fun n => n <? last) (gaps (ack + 2) (bit_string d)).
Proof. unfold missing. rewrite bit_string_map, gaps_map. f_equal. apply map_ext. intros i. lia. Qed.
Lemma set_bits_count d : count_ones d = Z.of_nat (set_bits d).
Proof.
  rewrite count_ones_spec, bit_string_map. unfold set_bits, count_true, zlen. f_equal. induction (seq 0 (8 * length d)) as [|i l IH]; [reflexivity|]. cbn [map filter].
  destruct (bitmap_bit d i); cbn [length]; lia.
Qed.

(** ** One selective ack *)
Definition to_resend (ack : Z) (d : list byte) (w : list packet) : list Z :=
  (if (3 <=? set_bits d)%nat then [u16 (ack + 1)] else []) ++ match last_opt w with Some q => missing ack d (seq_nr q) | None => [] end.
Lemma extension_run rec ack d e s loss : ext_ty e = ESack -> ext_data e = d -> (length d < 256)%nat -> 0 <= ack -> ack + 2 + 8 * zlen d <= 65536 ->
  gate_is_open s -> all_sent s -> s_last_acked (sk s) = ack ->
  exists s', process_extensions rec ack [e] loss s = (Ret (loss || negb (is_nil (to_resend ack d (s_send_window (sk s))))), s') /\
    resent s s' (flat_map (in_flight (s_send_window (sk s))) (to_resend ack d (s_send_window (sk s)))).
Proof.
  intros HT HD HL Hack HB HG HA HK. unfold zlen in HB. cbn [process_extensions]. rewrite HT, HD. cbn [is_sack]. rewrite set_bits_count.
  set (w := s_send_window (sk s)). unfold to_resend. rewrite flat_map_app.
  assert (H1 : exists s1, (if 3 <=? Z.of_nat (set_bits d) then n <- ck_u16 1084 (ack + 1) ;; resend_lost_packet rec n ;;; ret true else ret loss) s =
    (Ret (loss || (3 <=? set_bits d)%nat), s1) /\ resent s s1 (flat_map (in_flight w) (if (3 <=? set_bits d)%nat then [u16 (ack + 1)] else []))).
  { destruct (3 <=? set_bits d)%nat eqn:E3; [replace (3 <=? Z.of_nat (set_bits d)) with true by lia|replace (3 <=? Z.of_nat (set_bits d)) with false by lia].
    - unfold bind at 1, ck_u16. rewrite arith_fits by (try (apply u16_small); lia). rewrite (u16_small (ack + 1)) by lia.
      destruct (resend_number rec (ack + 1) s HG HA ltac:(unfold near; lia)) as (s1 & E1 & R1). exists s1. unfold bind. rewrite E1. rewrite orb_true_r. split; [reflexivity|].
      cbn [flat_map]. rewrite app_nil_r. exact R1.
    - exists s. rewrite orb_false_r. split; [reflexivity|apply resent_nil]. }
  destruct H1 as (s1 & E1 & R1). unfold bind at 1. rewrite E1. unfold bind at 1, get_sk. destruct (resent_open _ _ _ R1 HG HA) as [HG1 HA1].
  assert (HK1 : sk s1 = sk s) by apply R1. rewrite HK1. fold w. destruct (last_opt w) as [lp|] eqn:EL.
  - rewrite bits_of_spec. unfold bind at 1. cbn [unwrap]. unfold bind at 1, ret at 1. rewrite missing_gaps.
    destruct (resend_gaps_run rec ack (seq_nr lp) Hack (bit_string d) 0 s1 (loss || (3 <=? set_bits d)%nat)) as (s2 & E2 & R2); [rewrite bit_string_length; lia|exact HG1|exact HA1|now rewrite HK1|rewrite bit_string_length; lia|].
    cbv zeta in *. change (ack + 2 + Z.of_nat 0) with (ack + 2 + 0) in *. rewrite Z.add_0_r in *. rewrite E2. exists s2. split.
    + unfold ret. f_equal. f_equal. destruct (3 <=? set_bits d)%nat; [now rewrite !orb_true_r|]. rewrite orb_false_r. reflexivity.
    + eapply resent_trans; [exact R1|]. rewrite HK1 in R2. exact R2.
  - unfold bind, ret. exists s1. split; [|now rewrite app_nil_r]. f_equal. f_equal. rewrite app_nil_r. destruct (3 <=? set_bits d)%nat; reflexivity.
Qed.

(** ** The whole acknowledgement *)
Lemma process_ack_world i s : wp (process_ack i) (fun o s' => match o with Ret _ => w_send (wd s') = w_send (wd s) | _ => True end) s.
Proof.
  unfold process_ack. do 2 wstep. cbv zeta. do 3 wstep. apply wp_unwrap; [|intros; exact I]. intros p Hp. cbv zeta. sproj_in Hp.
  unfold update_base_delay, update_current_delay. do 4 wstep. sproj. wstep.
  eapply wp_conseq; [apply (queuing_delay_keep)|]. intros [q|[]] t [-> HH]; cbv beta iota in HH |- *; try exact I.
  unfold update_congestion_window. do 3 wstep. cbv zeta. do 2 wstep. sproj. wstep; wstep; [intros; exact I|intros _]. wstep. sproj.
  wstep. eapply wp_conseq; [apply (queuing_delay_keep)|]. intros [q'|[]] t [-> HH2]; cbv beta iota in HH2 |- *; try exact I.
  wstep; wstep; [intros; exact I|intros _].
  match goal with |- wp (update_congestion_timeout ?d) _ ?t => pose proof (update_congestion_timeout_val d t) as HV end.
  eapply wp_conseq; [apply HV|]. intros [[]|] t HT; [|exact I]. cbv beta iota in HT. rewrite HT. reflexivity.
Qed.
Lemma acked_start_world p s s' : acked_start p s = (Ret tt, s') -> w_send (wd s') = w_send (wd s) /\ (~ In (ack_nr p) (map seq_nr (s_send_window (sk s))) -> s_cwnd (sk s') = s_cwnd (sk s)).
Proof.
  intros H. assert (HW : wp (acked_start p) (fun o s' => match o with Ret _ => w_send (wd s') = w_send (wd s) /\ (~ In (ack_nr p) (map seq_nr (s_send_window (sk s))) -> s_cwnd (sk s') = s_cwnd (sk s)) | _ => True end) s);
    [|unfold wp in HW; rewrite H in HW; exact HW]. clear H s'.
  unfold acked_start. wstep.
  assert (HN : wp (note_ack (ack_nr p)) (fun o s' => match o with Ret _ => w_send (wd s') = w_send (wd s) /\ s_cwnd (sk s') = s_cwnd (sk s) /\ s_send_window (sk s') = s_send_window (sk s) | _ => True end) s).
  { unfold note_ack. do 2 wstep. destruct (_ =? _); [wstep; wstep; [intros; exact I|intros _]; wstep; auto|]. do 4 wstep. wstep. sproj. auto. }
  eapply wp_conseq; [apply HN|]. intros [[]|] s1 K; [|exact I]. cbv beta iota in K. destruct K as (K1 & K2 & K3). do 2 wstep. destruct (position _ _) as [i|] eqn:EP.
  - eapply wp_conseq; [apply process_ack_world|]. intros [[]|] s2 K; [|exact I]. cbv beta iota in K. split; [congruence|]. intros HI. exfalso. apply HI.
    pose proof (position_spec (fun q => ack_nr p =? seq_nr q) (s_send_window (sk s1))) as HP. rewrite EP in HP. destruct HP as (a & x & b & E & _ & F & _). rewrite <- K3, E, map_app. apply in_or_app. right. left. lia.
  - wstep. auto.
Qed.
Lemma selective_run rec p d s s' : extensions p = Some [mkExt ESack d] -> (length d < 256)%nat -> 0 <= ack_nr p -> ack_nr p + 2 + 8 * zlen d <= 65536 ->
  (s_curr_window (sk s) < 2800 \/ (~ In (ack_nr p) (map seq_nr (s_send_window (sk s))) /\ gate_is_open s)) -> all_sent s ->
  handle_state_packet rec p s = (Ret tt, s') ->
  let w := s_send_window (sk s) in
  let ns := to_resend (ack_nr p) d w in
  s_send_window (sk s') = forget (ack_nr p) w /\
  (exists xs, w_sent (wd s') = w_sent (wd s) ++ xs /\ copies (s_connected_to (sk s)) (flat_map (in_flight w) ns) xs) /\
  (exists c, (~ In (ack_nr p) (map seq_nr w) -> c = s_cwnd (sk s)) /\
     s_cwnd (sk s') = if negb (is_nil w) && (dup_after (ack_nr p) (sk s) =? 3) || negb (is_nil ns) then Z.max (c / 2) 2800 else c).
Proof.
  intros HE HL H0 HB HG HA H. cbv zeta. rewrite handle_state_split in H. unfold bind at 1 in H. destruct (acked_start p s) as [[[]|] s1] eqn:E1; [|discriminate].
  destruct (acked_start_world _ _ _ E1) as [W1 W2]. pose proof (acked_start_wp p s) as HW. unfold wp in HW. rewrite E1 in HW. cbn [fst snd] in HW. destruct HW as (H1 & H2 & H3 & H4 & H5 & H6 & H7 & H8 & H9).
  unfold bind at 1, get_sk at 1 in H. rewrite HE in H. cbn [unwrap] in H. unfold bind at 1, ret at 1 in H. unfold bind at 1 in H.
  assert (HG1 : gate_is_open s1).
  { unfold gate_is_open. destruct HG as [HG|[HI HG]]; [unfold limit; lia|]. unfold gate_is_open, limit in *. rewrite H4, H5, (W2 HI). exact HG. }
  assert (HA1 : all_sent s1) by (unfold all_sent; rewrite W1; exact HA).
  destruct (extension_run rec (ack_nr p) d (mkExt ESack d) s1 (negb (is_nil (s_send_window (sk s1))) && (s_duplicate_ack_count (sk s1) =? 3)) eq_refl eq_refl HL H0 HB HG1 HA1 H2) as (s2 & E2 & R2).
  rewrite E2 in H. rewrite H1, H3 in H. destruct R2 as (R1 & R2 & R3 & R4 & xs & R5 & R6). rewrite H1 in R6.
  unfold finish_state_packet, bind at 1, get_sk at 1 in H. cbn [existsb ext_ty is_sack orb negb] in H. rewrite andb_false_r in H. unfold bind at 1, ret at 1 in H.
  set (lost := negb (is_nil (s_send_window (sk s))) && (dup_after (ack_nr p) (sk s) =? 3) || negb (is_nil (to_resend (ack_nr p) d (s_send_window (sk s))))) in *.
  unfold bind at 1 in H.
  assert (E3 : exists s3, (if lost then upd_sk (fun k => ss_cwnd (Z.max (s_cwnd k / 2) (MIN_CWND * MSS)) k) else ret tt) s2 = (Ret tt, s3) /\ wd s3 = wd s2 /\
    s_send_window (sk s3) = s_send_window (sk s2) /\ s_last_acked (sk s3) = s_last_acked (sk s2) /\ s_cwnd (sk s3) = if lost then Z.max (s_cwnd (sk s1) / 2) 2800 else s_cwnd (sk s1)).
  { destruct lost; eexists; (split; [reflexivity|]); sproj; rewrite R1; auto. }
  destruct E3 as (s3 & E3 & T1 & T2 & T3 & T4). rewrite E3 in H.
  pose proof (advance_window_wp s3) as HW. unfold wp in HW. rewrite H in HW. cbn [fst snd] in HW. destruct HW as (K1 & K2 & K3 & K4).
  split; [rewrite K1, T2, T3, R1, H1, H2; reflexivity|]. split.
  - exists xs. rewrite K2, T1, R5, H8. split; [reflexivity|]. rewrite <- H6. exact R6.
  - exists (s_cwnd (sk s1)). split; [exact W2|]. rewrite K3. exact T4.
Qed.
