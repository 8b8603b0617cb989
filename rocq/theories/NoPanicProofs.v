(** Panics (C54, C55): the only operations that can panic are the overflow-checked additions, subtractions
    and multiplications listed here, and only in a build with overflow checks. *)
From Verif Require Export TermProofs EwmaProofs.
Require Import ZifyBool ZifyNat ZifyN.
Local Open Scope Z_scope.
Ltac Zify.zify_post_hook ::= Z.to_euclidean_division_equations.

Definition overflow_lines : list Z := [459; 574; 641; 769; 888; 899; 1025; 1036; 1084; 1093; 1116].
(** What rules out all other panics: the buffered packets are valid, the estimates are in range, the packets to send
    have a header, and - with overflow checks - the count of bytes in flight is the exact total. *)
Definition long (p : packet) : Prop := (20 <= length p)%nat.
Definition total (l : list packet) : Z := fold_right (fun p n => u32 (packet_len p) + n) 0 l.
(** The delay samples are differences of 32-bit clock readings. *)
Definition in_u32 (d : Z) : Prop := -4294967296 < d < 4294967296.
Definition estimates_ok (k : socket) : Prop := (0 <= s_rtt k <= 4294967 /\ 0 <= s_rtt_variance k <= 4294967) /\ Forall in_u32 (s_base_delays k) /\ Forall in_u32 (map snd (s_current_delays k)).
Definition readable (c : bool) (k : socket) : Prop := Forall valid (s_incoming_buffer k) /\ estimates_ok k /\
  Forall long (s_send_window k) /\ Forall long (s_unsent_queue k) /\ (c = true -> s_curr_window k = total (s_send_window k) /\ s_curr_window k < 4294967296).
Notation ok s := (readable (w_chk (wd s)) (sk s)).
Definition tame {A} (s : st) (o : outcome A) (s' : st) : Prop :=
  w_chk (wd s') = w_chk (wd s) /\ ok s' /\ forall l, o = Fail (Panic l) -> w_chk (wd s) = true /\ In l overflow_lines.
Definition safe {A} (m : M A) : Prop := forall s, ok s -> wp m (tame s) s.

Lemma tame_ret {A} s (a : A) : ok s -> tame s (Ret a) s.
Proof. intros H. split; [reflexivity|]. split; [exact H|]. discriminate. Qed.
Lemma tame_fail {A B} s e s' : tame s (Fail e : outcome A) s' -> tame s (Fail e : outcome B) s'.
Proof. intros (C & R & P). split; [exact C|]. split; [exact R|]. intros l [= ->]. now apply P. Qed.
Lemma safe_bind {A B} (m : M A) (f : A -> M B) : safe m -> (forall a, safe (f a)) -> safe (bind m f).
Proof.
  intros H1 H2 s HR. apply wp_bind. eapply wp_conseq; [apply H1, HR|]. intros [a|e] s' (C & R & P).
  - eapply wp_conseq; [apply H2, R|]. intros o s'' (C2 & R2 & P2). split; [congruence|]. split; [exact R2|]. rewrite <- C. exact P2.
  - split; [exact C|]. split; [exact R|]. intros l [= ->]. now apply P.
Qed.
(** The value read from the state may be used. *)
Lemma safe_get {B} (f : socket -> M B) : (forall s, ok s -> wp (f (sk s)) (tame s) s) -> safe (s <- get_sk ;; f s).
Proof. intros H s HR. do 2 wstep. apply H, HR. Qed.
Section Rules.
  Lemma safe_ret {A} (a : A) : safe (ret a). Proof. intros s HR. wstep. now apply tame_ret. Qed.
  Lemma safe_throw {A} k : safe (@throw A k). Proof. intros s HR. wstep. split; [reflexivity|]. split; [exact HR|]. discriminate. Qed.
  Lemma safe_nofuel {A} : safe (@fail A NoFuel). Proof. intros s HR. wstep. split; [reflexivity|]. split; [exact HR|]. discriminate. Qed.
  Lemma safe_sk : safe get_sk. Proof. intros s HR. wstep. now apply tame_ret. Qed.
  Lemma safe_event : safe event_fuel. Proof. intros s HR. wstep. now apply tame_ret. Qed.
  Lemma safe_upd f : (forall c k, readable c k -> readable c (f k)) -> safe (upd_sk f).
  Proof. intros H s HR. wstep. split; [reflexivity|]. split; [apply H, HR|]. discriminate. Qed.
  Lemma safe_now : safe now_microseconds. Proof. intros s HR. wstep. split; [reflexivity|]. split; [exact HR|]. discriminate. Qed.
  Lemma safe_rand : safe random_u16. Proof. intros s HR. apply wp_rand. intros v _. split; [reflexivity|]. split; [exact HR|]. discriminate. Qed.
  Lemma safe_arith l lo hi wr v : In l overflow_lines -> safe (arith l lo hi wr v).
  Proof.
    intros HL s HR. apply wp_arith; intros.
    - split; [reflexivity|]. split; [exact HR|]. intros l' [= <-]. auto.
    - now apply tame_ret.
  Qed.
  Lemma safe_try {A} (r : result A kind) : safe (try_ r). Proof. destruct r; [apply safe_ret|apply safe_throw]. Qed.
  Lemma safe_unwrap {A} l (o : option A) : o <> None -> safe (unwrap l o). Proof. destruct o; [intros; apply safe_ret|congruence]. Qed.
  Lemma safe_send d p : safe (udp_send d p).
  Proof.
    intros s HR. assert (H : w_chk (wd (tx_state d p s)) = w_chk (wd s)) by (unfold tx_state; cbn; destruct (tx_ok s); reflexivity).
    apply wp_udp_send; intros; (split; [exact H|split; [rewrite H; exact HR|discriminate]]).
  Qed.
  Lemma safe_recv n : safe (udp_recv n).
  Proof. intros s HR. apply wp_udp_recv; intros; (split; [reflexivity|split; [exact HR|discriminate]]). Qed.
  Lemma safe_ignore {A} (m : M A) : safe m -> safe (ignore_result m).
  Proof.
    intros H s HR. pose proof (H s HR) as HW. unfold wp, ignore_result in *. destruct (m s) as [[a|[k|l| |]] s']; cbn in *; destruct HW as (H1 & H2 & H3); (split; [exact H1|split; [exact H2|]]); try discriminate.
    intros l' [= <-]. now apply H3.
  Qed.
  Lemma safe_loop {S A} f (body : S -> M (S + A)) : (forall x, safe (body x)) -> forall x, safe (loop f body x).
  Proof.
    intros H. induction f as [|f IH]; intros x; cbn [loop]; [apply safe_nofuel|]. apply safe_bind; [apply H|]. intros [y|a]; [apply IH|apply safe_ret].
  Qed.
End Rules.
Lemma safe_known {A B} (a : A) (f : A -> M B) : safe (f a) -> safe (bind (ret a) f). Proof. exact (fun H => H). Qed.
Ltac safe := repeat (cbv beta zeta; match goal with
  | |- safe (bind _ _) => apply safe_bind; intros
  | |- safe (loop _ _ _) => apply safe_loop; intros
  | |- safe (ret _) => apply safe_ret
  | |- safe get_sk => apply safe_sk
  | |- safe event_fuel => apply safe_event
  | |- safe (upd_sk _) => apply safe_upd; intros; try assumption
  | |- safe now_microseconds => apply safe_now
  | |- safe random_u16 => apply safe_rand
  | |- safe (throw _) => apply safe_throw
  | |- safe (throw_se _) => apply safe_throw
  | |- safe (try_ _) => apply safe_try
  | |- safe (ignore_result _) => apply safe_ignore
  | |- safe (udp_send _ _) => apply safe_send
  | |- safe (udp_recv _) => apply safe_recv
  | |- safe (ck_u16 _ _) => apply safe_arith; cbn; tauto
  | |- safe (ck_u32 _ _) => apply safe_arith; cbn; tauto
  | |- safe (ck_u64 _ _) => apply safe_arith; cbn; tauto
  | |- safe (ck_i32 _ _) => apply safe_arith; cbn; tauto
  | |- safe (ck_i64 _ _) => apply safe_arith; cbn; tauto
  | |- safe (if ?b then _ else _) => destruct b
  | |- safe (match ?x with _ => _ end) => destruct x
  end); auto.

Lemma valid_payload p : valid p -> payload p <> None.
Proof. intros H. apply parse_inv in H as [_ (h & exts & pl & _ & Hw & ->)]. now rewrite payload_wire. Qed.
Lemma valid_extensions p : valid p -> extensions p <> None.
Proof. intros H. apply parse_inv in H as [_ (h & exts & pl & _ & Hw & ->)]. now rewrite extensions_wire. Qed.
Lemma readable_insert p c k : valid p -> readable c k -> readable c (ss_incoming_buffer (insert_packet p (s_incoming_buffer k)) k).
Proof.
  unfold readable. sproj. intros HP (HR & HO). split; [|exact HO]. clear HO. unfold insert_packet. destruct (match last_opt _ with Some _ => _ | None => _ end); [apply Forall_app; auto|].
  cbv zeta. destruct (match nth_error _ _ with Some _ => _ | None => _ end); [|exact HR].
  match goal with |- Forall _ (firstn ?i _ ++ _) => rewrite <- (firstn_skipn i) in HR end. apply Forall_app in HR as [H1 H2]. apply Forall_app. auto.
Qed.
Lemma readable_advance c k : readable c k -> readable c (advance_socket k).
Proof. unfold readable, advance_socket. destruct (s_incoming_buffer k) eqn:E; [now rewrite E|]. sproj. intros [H HO]; split; [now inversion H|exact HO]. Qed.
Lemma safe_flush_in n : safe (flush_incoming_buffer n).
Proof.
  unfold flush_incoming_buffer, advance_incoming_buffer. apply safe_get. intros s HR. cbv zeta.
  destruct (is_nil (s_pending_data (sk s))); cbn [negb].
  - destruct (s_incoming_buffer (sk s)) as [|p rest] eqn:EB; [wstep; now apply tame_ret|].
    assert (HP : payload p <> None) by (apply valid_payload; destruct HR as [HR _]; rewrite EB in HR; now inversion HR).
    assert (HS : safe (ready <- (if s_ack_nr (sk s) =? seq_nr p then ret true else next <- ck_u16 574 (s_ack_nr (sk s) + 1) ;; ret (next =? seq_nr p)) ;;
       if (ready : bool) then pl <- unwrap 576 (payload p) ;; (if (length (firstn n pl) =? length pl)%nat then upd_sk advance_socket else upd_sk (ss_pending_data (skipn (length (firstn n pl)) pl))) ;;; ret (firstn n pl) else ret [])).
    { safe; try (apply safe_unwrap; exact HP); auto using readable_advance. }
    apply HS, HR.
  - match goal with |- wp ?m _ _ => assert (HS : safe m) end; [|apply HS, HR]. safe; auto using readable_advance.
Qed.
Lemma safe_reply p t : safe (prepare_reply p t). Proof. unfold prepare_reply. safe. Qed.
(** The reply and its selective acknowledgement *)
Lemma safe_attach {B} p t (f : packet -> M B) : (forall r, safe (f r)) -> safe (reply <- prepare_reply p t ;; reply' <- attach_sack p reply ;; f reply').
Proof.
  intros Hf s HR. apply wp_bind. eapply wp_conseq; [apply prepare_reply_wire|]. intros o s' [-> (tsd & -> & _)]. cbv beta iota.
  set (h := mkHdr _ _ _ _ _ _ _). clearbody h.
  assert (HS : safe (reply' <- attach_sack p (wire h [] []) ;; f reply')).
  { apply safe_bind; [|exact Hf]. clear s HR. unfold attach_sack. apply safe_get. intros s HR.
    destruct (sack_build_spec (s_ack_nr (sk s)) (s_incoming_buffer (sk s)) [] eq_refl) as (sack & E & HL & _).
    destruct (1 <? _); [|wstep; now apply tame_ret]. unfold build_selective_ack. apply wp_bind. do 2 wstep. apply wp_bind.
    assert (HA : safe (if is_nil (s_incoming_buffer (sk s)) then ret 0 else ck_u16 769 (s_ack_nr (sk s) + 1))) by safe.
    eapply wp_conseq; [apply wp_intro; intros o s' EA; pose proof (HA s HR) as HW; unfold wp in HW; rewrite EA in HW; exact (conj EA HW)|]. cbv beta.
    intros [a|e] s' [EA HW]; [|eapply tame_fail; exact HW].
    assert (s' = s) as -> by (revert EA; destruct (is_nil _); [|unfold ck_u16, arith; destruct (_ && _)]; intros H; apply (f_equal snd) in H; now symmetry).
    rewrite E. cbn [unwrap]. wstep. destruct sack as [|b sack]; cbn [is_nil]; [wstep; now apply tame_ret|].
    rewrite set_sack_bytes; [|apply Forall_nil|cbn [length] in HL |- *; lia|exact HL]. cbn [unwrap]. wstep. now apply tame_ret. }
  apply (HS (ticked s) HR).
Qed.
Lemma readable_base d t c k : in_u32 d -> readable c k -> readable c (base_delay_socket d t k).
Proof.
  intros Hd (HV & (HE & HB & HC) & HO). unfold base_delay_socket. destruct (_ || _); cbv zeta.
  - split; [exact HV|]. split; [|exact HO]. split; [exact HE|]. split; [|exact HC]. sproj. apply Forall_app. split; [|now constructor].
    destruct (_ =? _)%nat; [|exact HB]. destruct (s_base_delays k); [constructor|now inversion HB].
  - destruct (_ <? _); [|exact (conj HV (conj (conj HE (conj HB HC)) HO))]. split; [exact HV|]. split; [|exact HO]. split; [exact HE|]. split; [|exact HC]. sproj.
    generalize (length (s_base_delays k) - 1)%nat. induction HB as [|x l Hx HB IH]; intros [|i]; cbn [list_set]; constructor; auto.
Qed.
Lemma readable_current d t c k : in_u32 d -> readable c k -> readable c (current_delay_socket d t k).
Proof.
  intros Hd (HV & (HE & HB & HC) & HO). split; [exact HV|]. split; [|exact HO]. split; [exact HE|]. split; [exact HB|]. unfold current_delay_socket. sproj.
  rewrite map_app. apply Forall_app. split; [|now constructor]. revert HC. generalize (s_current_delays k). intros l. induction l as [|[x y] l IH]; cbn [drop_old map]; [auto|].
  intros H. destruct (_ <? _); [inversion H; auto|exact H].
Qed.
Lemma min_base_range k : Forall in_u32 (s_base_delays k) -> in_u32 (min_base_delay k).
Proof.
  unfold min_base_delay. intros H. destruct H as [|x l Hx H]; [unfold in_u32; lia|]. revert x Hx. induction H as [|y l Hy H IH]; intros x Hx; cbn [fold_left]; [exact Hx|].
  apply IH. unfold in_u32 in *. lia.
Qed.
Lemma filtered_range k : Forall in_u32 (map snd (s_current_delays k)) -> -8589934592 <= filtered_current_delay k <= 8589934592.
Proof. intros H. apply (within_i64 8589934592); [split; [lia|reflexivity]|]. apply ewma_within. exact H. Qed.
Lemma ck_i64_small l v s : -9223372036854775808 <= v < 9223372036854775808 -> ck_i64 l v s = (Ret v, s).
Proof.
  intros H. unfold ck_i64, arith. change (2 ^ 63) with 9223372036854775808. replace ((- (9223372036854775808) <=? v) && (v <=? 9223372036854775808 - 1)) with true by lia.
  cbn [negb]. rewrite andb_false_r. do 2 f_equal. unfold i64, swrap. change (2 ^ 64) with 18446744073709551616. change (2 ^ (64 - 1)) with 9223372036854775808.
  destruct (_ <? _) eqn:E; Z.div_mod_to_equations; lia.
Qed.
(** The measured queuing delay needs 35 bits. *)
Lemma queuing_value s : ok s -> queuing_delay s = (Ret (filtered_current_delay (sk s) - min_base_delay (sk s)), s) /\ -12884901888 <= filtered_current_delay (sk s) - min_base_delay (sk s) <= 12884901888.
Proof.
  intros (_ & (_ & HB & HC) & _). pose proof (min_base_range _ HB) as H1. pose proof (filtered_range _ HC) as H2. unfold in_u32 in H1.
  unfold queuing_delay, bind, get_sk. rewrite ck_i64_small by lia. split; [reflexivity|lia].
Qed.
Lemma safe_rto d : safe (update_congestion_timeout (i32 (u32 d / 1000))).
Proof.
  pose proof (u32_range d) as HD. assert (HX : 0 <= i32 (u32 d / 1000) <= 4294967) by (rewrite i32_range_small; lia). revert HX. generalize (i32 (u32 d / 1000)). clear d HD. intros d HD.
  intros s (HV & ((Hr & Hv) & HD1 & HD2) & HO). unfold update_congestion_timeout. do 2 wstep.
  set (k := sk s) in *. assert (H1 : 0 <= s_rtt_variance k + Z.quot (Z.abs (s_rtt k - d) - s_rtt_variance k) 4 <= 4294967) by lia.
  assert (H2 : 0 <= s_rtt k + Z.quot (d - s_rtt k) 8 <= 4294967) by lia.
  assert (HA : forall l v (Q : outcome Z -> st -> Prop) t, -2147483648 <= v < 2147483648 -> Q (Ret v) t -> wp (ck_i32 l v) Q t).
  { clear. intros l v Q t Hv H. unfold ck_i32. apply wp_arith; [intros _ [|]; lia|]. intros _. cbv beta. now rewrite i32_range_small. }
  apply wp_bind, HA; [lia|]. apply wp_bind, HA; [lia|]. apply wp_bind, HA; [lia|]. apply wp_bind, HA; [lia|]. cbv beta iota. do 2 wstep.
  apply wp_bind, HA; [lia|]. apply wp_bind, HA; [lia|]. cbv beta iota. do 2 wstep. apply wp_bind, HA; [lia|]. apply wp_bind, HA; [lia|]. cbv beta iota. wstep.
  split; [reflexivity|]. split; [|discriminate]. split; [exact HV|]. split; [split; [split; assumption|split; assumption]|exact HO].
Qed.
Lemma safe_cwnd f b : safe (update_congestion_window f b).
Proof. unfold update_congestion_window. safe. Qed.
Lemma safe_process_ack f : forall s, ok s -> wp (match position f (s_send_window (sk s)) with Some i => process_ack i | None => ret tt end) (tame s) s.
Proof.
  intros s HR. pose proof (position_spec f (s_send_window (sk s))) as HP. destruct (position f (s_send_window (sk s))) as [i|]; [|apply safe_ret, HR].
  destruct HP as (a & x & b & E & <- & _). unfold process_ack. do 2 wstep. rewrite E.
  assert (EN : nth_error (a ++ x :: b) (length a) = Some x) by (rewrite nth_error_app2, Nat.sub_diag by lia; reflexivity). rewrite EN. clear EN.
  cbv zeta. do 2 wstep. cbn [unwrap]. do 2 wstep. set (d := ts_sub _ _).
  assert (Hd : in_u32 d). { unfold d, ts_sub, in_u32. pose proof (micros_range (w_clock (wd s) (w_tick (wd s)))) as HM. change (2 ^ 32) with 4294967296 in HM. unfold clock_now in *. pose proof (timestamp_range x). lia. }
  clearbody d. unfold update_base_delay, update_current_delay. do 4 wstep. set (s1 := mkSt _ _).
  assert (HR1 : ok s1) by (apply readable_current; [exact Hd|]; apply readable_base; [exact Hd|exact HR]).
  assert (ET : forall (o : outcome unit) s', tame s1 o s' -> tame s o s') by (intros o s' H; exact H). clearbody s1.
  apply wp_bind. destruct (queuing_value s1 HR1) as [EQ _]. unfold wp at 1. rewrite EQ. cbn [fst snd]. apply wp_bind.
  eapply wp_conseq; [apply (safe_cwnd _ _ s1 HR1)|]. intros [[]|e] s2 (C & R & P); [|apply ET; split; [exact C|]; split; [exact R|]; intros l [= ->]; now apply P].
  apply wp_bind. destruct (queuing_value s2 R) as [EQ2 HQ]. unfold wp at 1. rewrite EQ2. cbn [fst snd]. apply wp_bind. unfold wp at 1. rewrite ck_i64_small by (unfold in_u32 in Hd; lia). cbn [fst snd].
  eapply wp_conseq; [apply safe_rto, R|]. intros o s3 (C3 & R3 & P3). apply ET. split; [congruence|]. split; [exact R3|]. rewrite <- C. exact P3.
Qed.
Lemma safe_advance : safe advance_send_window.
Proof.
  unfold advance_send_window. apply safe_get. intros s HR.
  pose proof (position_spec (fun p => seq_nr p =? s_last_acked (sk s)) (s_send_window (sk s))) as HP. destruct (position _ _) as [i|]; [|apply safe_ret, HR].
  destruct HP as (a & x & b & E & <- & _).
  assert (HD : forall n s, (n <= length (s_send_window (sk s)))%nat -> ok s -> wp (drop_acked n) (tame s) s).
  { clear. induction n as [|n IH]; intros s HN HR; cbn [drop_acked]; [apply safe_ret, HR|]. do 2 wstep. destruct (s_send_window (sk s)) as [|p rest] eqn:E; [cbn in HN; lia|].
    destruct HR as (HV & HE & HW & HQ & HC). rewrite E in HW, HC. pose proof (Forall_inv HW) as Hp; pose proof (Forall_inv_tail HW) as HW'.
    pose proof (u32_range (packet_len p)) as HU. assert (0 <= total rest) by (clear; induction rest as [|q l IH]; cbn [total fold_right]; [lia|]; fold (total l); pose proof (u32_range (packet_len q)); lia).
    cbn [total fold_right] in HC. fold (total rest) in HC.
    do 2 wstep. apply wp_bind. unfold ck_u32. apply wp_arith. { intros C [|]; exfalso; cbn [wd] in C; specialize (HC C); lia. }
    intros HX. cbv beta iota. do 2 wstep. eapply wp_conseq; [apply IH; [cbn in HN |- *; lia|]|intros o s' H'; exact H'].
    split; [exact HV|]. split; [exact HE|]. split; [exact HW'|]. split; [exact HQ|]. sproj. intros C. cbn [wd] in HX. specialize (HX C). specialize (HC C). rewrite u32_small by lia. split; lia. }
  apply HD; [|exact HR]. rewrite E, app_length. cbn. lia.
Qed.
Section Safe.
  Variable rec : nat -> M (list byte * addr).
  Hypothesis Hrec : forall n, safe (rec n).
  Lemma safe_send_packet p : safe (send_packet rec p). Proof. unfold send_packet. safe. Qed.
  Lemma safe_resend l : safe (resend_lost_packet rec l).
  Proof.
    unfold resend_lost_packet. apply safe_get. intros s HR. pose proof (position_spec (fun p => seq_nr p =? l) (s_send_window (sk s))) as HP. destruct (position _ _) as [i|]; [|apply safe_ret, HR].
    destruct HP as (a & x & b & E & <- & _). rewrite E.
    assert (EN : nth_error (a ++ x :: b) (length a) = Some x) by (rewrite nth_error_app2, Nat.sub_diag by lia; reflexivity). rewrite EN. clear EN.
    match goal with |- wp ?m _ _ => assert (HS : safe m) end; [|apply HS, HR]. unfold unwrap. safe. apply safe_send_packet.
  Qed.
  Lemma safe_gaps a bits q : forall i loss, safe (resend_gaps rec a i bits q loss).
  Proof. induction bits as [|[] bits IH]; intros; cbn [resend_gaps]; safe. apply safe_resend. Qed.
  Lemma safe_exts a exts : forall loss, safe (process_extensions rec a exts loss).
  Proof.
    induction exts as [|e exts IH]; intros; cbn [process_extensions]; [apply safe_ret|]. rewrite bits_of_spec. cbn [unwrap]. safe; [apply safe_resend|apply safe_gaps].
  Qed.
  Lemma safe_note a : safe (note_ack a). Proof. unfold note_ack. safe. Qed.
  Lemma safe_finish a e l : safe (finish_state_packet rec a e l). Proof. unfold finish_state_packet. safe; [apply safe_resend|apply safe_advance..]. Qed.
  Lemma safe_state p : valid p -> safe (handle_state_packet rec p).
  Proof.
    intros HV. unfold handle_state_packet. apply safe_bind; [apply safe_note|intros _].
    match goal with |- safe (bind _ ?f) => change (safe (bind get_sk f)) end.
    intros s HR. do 2 wstep.
    apply wp_bind. eapply wp_conseq; [apply safe_process_ack, HR|]. intros [[]|e] s' (C & R & P); [|split; [exact C|]; split; [exact R|]; intros l [= ->]; now apply P].
    match goal with |- wp ?m _ _ => assert (HS : safe m) end.
    { safe; [|apply safe_exts|apply safe_finish]. apply safe_unwrap, valid_extensions, HV. }
    eapply wp_conseq; [apply HS, R|]. intros o s'' (C2 & R2 & P2). split; [congruence|]. split; [exact R2|]. rewrite <- C. exact P2.
  Qed.
  Lemma safe_dispatch p ty src : valid p -> safe (dispatch rec p ty src).
  Proof.
    intros HV. unfold dispatch. apply safe_bind; [apply safe_sk|intros k].
    assert (HA : forall t, safe (reply <- prepare_reply p t ;; reply' <- attach_sack p reply ;; ret (Some reply'))) by (intros; apply (safe_attach p t (fun r => ret (Some r))); intros; apply safe_ret).
    assert (HB : forall t, safe (reply <- prepare_reply p t ;; reply' <- attach_sack p reply ;; upd_sk (ss_state Closed) ;;; ret (Some reply')))
      by (intros; apply (safe_attach p t (fun r => upd_sk (ss_state Closed) ;;; ret (Some r))); intros; safe).
    destruct (s_state k), ty; unfold handle_data_packet; lazymatch goal with
    | |- safe (bind get_sk (fun _ => bind (prepare_reply _ _) (fun _ => bind (attach_sack _ _) _))) => apply safe_bind; [apply safe_sk|intros; cbv zeta; apply HA]
    | |- safe (bind get_sk _) => idtac "other"
    | |- safe (bind (prepare_reply _ _) (fun _ => bind (attach_sack _ _) _)) => apply HB
    | |- safe (bind (handle_state_packet _ _) _) => apply safe_bind; [now apply safe_state|intros; apply safe_ret]
    | |- safe (bind (prepare_reply _ _) _) => apply safe_bind; [apply safe_reply|intros; apply safe_ret]
    | |- _ => safe; apply safe_reply
    end.
  Qed.
  Lemma safe_type p : valid p -> safe (m_get_type p).
  Proof. intros HV. destruct (valid_type p HV) as [t E]. unfold m_get_type. rewrite E. apply safe_ret. Qed.
  Lemma safe_handle p src : valid p -> safe (handle_packet rec p src).
  Proof.
    intros HV. unfold handle_packet, ack_in_order. safe; auto using safe_reply, safe_dispatch, safe_type. destruct (_ =? 1); assumption.
  Qed.
  Lemma safe_process n b src : safe (process_datagram rec n b src).
  Proof.
    unfold process_datagram, insert_into_buffer. destruct (parse_total b) as [[p|e] E]; rewrite E; cbn [unwrap]; [|apply safe_known; safe].
    assert (HV : valid p) by (pose proof (parse_inv b p E) as [-> _]; exact E).
    apply safe_known. safe; auto using safe_handle, safe_type, safe_flush_in. now apply readable_insert.
  Qed.
  Lemma safe_fin : safe send_fin. Proof. unfold send_fin. safe. Qed.
  Lemma safe_timeout : safe handle_receive_timeout.
  Proof.
    unfold handle_receive_timeout, send_fast_resend_request, fast_resend_packet. apply safe_bind; [apply safe_sk|intros k0]. apply safe_bind; [safe|intros c]. apply safe_bind; [safe|intros ?].
    apply safe_get. intros s HR. destruct (s_send_window (sk s)) as [|p rest] eqn:E.
    { match goal with |- wp ?m _ _ => assert (HS : safe m) end; [|apply HS, HR]. safe; apply safe_fin. }
    do 2 wstep. cbv zeta. set (p' := set_timestamp _ p). destruct HR as (HV & HE & HW & HQ & HC). rewrite E in HW, HC. pose proof (Forall_inv HW) as Hp; pose proof (Forall_inv_tail HW) as HW'.
    assert (EL : length p' = length p) by (apply set_field_length; unfold long in Hp; lia).
    do 2 wstep. match goal with |- wp ?m _ ?t => assert (HS : safe m); [safe|assert (HR : ok t)] end.
    { split; [exact HV|]. split; [exact HE|]. split; [constructor; [unfold long in *; lia|exact HW']|]. split; [exact HQ|]. sproj. cbn [total fold_right] in HC |- *.
      unfold packet_len, zlen in *. rewrite EL. exact HC. }
    eapply wp_conseq; [apply HS, HR|]. intros o s' H. exact H.
  Qed.
  Lemma safe_wait : safe wait_datagram. Proof. unfold wait_datagram. safe. apply safe_timeout. Qed.
  Lemma safe_body n : safe (recv_body rec n). Proof. unfold recv_body. safe; [apply safe_wait|apply safe_process]. Qed.
End Safe.
Lemma safe_fuel f : forall n, safe (recv_fuel f n).
Proof. induction f as [|f IH]; intros n; cbn [recv_fuel]; [apply safe_nofuel|]. now apply safe_body. Qed.
Lemma safe_call n : safe (recv n). Proof. unfold recv. apply safe_bind; [apply safe_event|intros; apply safe_fuel]. Qed.
Lemma safe_recv_from n : safe (recv_from n).
Proof. unfold recv_from. safe; [apply safe_flush_in|apply safe_call]. Qed.
Lemma safe_flush : safe flush. Proof. unfold flush. safe. apply safe_call. Qed.
Lemma safe_close : safe close.
Proof. unfold close. safe; auto using safe_flush, safe_fin, safe_call. Qed.
Lemma long_wire h e pl : long (wire h e pl).
Proof. unfold long, wire. rewrite app_length, wire_header_length. lia. Qed.
Lemma readable_queue cs : forall c k, readable c k -> readable c (fold_left (fun s c => queue_chunk c s) cs k).
Proof.
  induction cs as [|d cs IH]; intros c k H; [exact H|]. apply IH. destruct H as (HV & HE & HW & HQ & HC). split; [exact HV|]. split; [exact HE|]. split; [exact HW|].
  split; [|exact HC]. unfold queue_chunk. sproj. apply Forall_app. split; [exact HQ|]. constructor; [|constructor]. rewrite chunk_packet_wire. apply long_wire.
Qed.
(** The packet handed back by [send_packet] has the length of the one given. *)
Lemma send_packet_long rec p : long p -> forall s, wp (send_packet rec p) (fun o _ => match o with Ret p' => length p' = length p | _ => True end) s.
Proof.
  intros HL s. unfold send_packet. do 6 wstep. apply wp_bind. eapply wp_conseq; [apply wp_intro; intros; exact I|]. intros [[]|e] s' _; [|exact I].
  do 2 wstep. cbv zeta. destruct (_ <? _); [wstep; reflexivity|]. do 2 wstep. apply wp_bind. apply wp_udp_send; intros; try exact I; (apply wp_bind, wp_try; intros; [|exact I]); wstep.
  unfold set_timestamp_difference. rewrite set_field_length; unfold set_timestamp; rewrite set_field_length; unfold long in HL; lia.
Qed.
Lemma safe_sending : safe send.
Proof.
  unfold send. apply safe_bind; [apply safe_sk|intros k0]. apply safe_loop. intros _ s HR. do 2 wstep. destruct (s_unsent_queue (sk s)) as [|p rest] eqn:E; [apply safe_ret, HR|].
  destruct HR as (HV & HE & HW & HQ & HC). rewrite E in HQ. pose proof (Forall_inv HQ) as Hp; pose proof (Forall_inv_tail HQ) as HQ'. do 2 wstep. set (t := mkSt _ _). assert (HR : ok t) by (repeat (split; [assumption|]); assumption).
  apply wp_bind. pose proof (safe_send_packet recv safe_call p t HR) as H1. pose proof (send_packet_long recv p Hp t) as H2. unfold wp in H1, H2 |- *.
  assert (ET : forall A (o : outcome A) s', tame t o s' -> tame s o s') by (intros A o s' H; exact H). clearbody t.
  destruct (send_packet recv p t) as [[p'|e] s']; cbn [fst snd] in *; [|apply ET; eapply tame_fail; exact H1]. destruct H1 as (C & R & _).
  match goal with |- tame s (fst (?m s')) (snd (?m s')) => change (wp m (tame s) s'); assert (HW2 : wp m (tame s') s') end.
  { do 2 wstep. apply wp_bind. destruct R as (RV & RE & RW & RQ & RC). pose proof (u32_range (packet_len p')) as HU. unfold ck_u32. apply wp_arith.
    - intros HK _. split; [reflexivity|]. split; [repeat (split; [assumption|]); assumption|]. intros l [= <-]. split; [exact HK|]. cbn. tauto.
    - intros HX. cbv beta iota. do 2 wstep. wstep. split; [reflexivity|]. split; [|discriminate]. split; [exact RV|]. split; [exact RE|]. sproj.
      split; [apply Forall_app; split; [exact RW|constructor; [unfold long in *; lia|constructor]]|]. split; [exact RQ|]. intros HK. specialize (HX HK). specialize (RC HK).
      assert (ES : forall l q, total (l ++ [q]) = total l + u32 (packet_len q)) by (clear; induction l as [|a l IH]; intros q; cbn [total fold_right app]; [lia|]; fold (total (l ++ [q])); rewrite IH; fold (total l); lia).
      rewrite ES, u32_small by lia. lia. }
  eapply wp_conseq; [exact HW2|]. intros o s'' H. apply ET. destruct H as (C2 & R2 & P2). split; [congruence|]. split; [exact R2|]. rewrite <- C. exact P2.
Qed.
Lemma safe_send_to d : safe (send_to d).
Proof. unfold send_to. safe; [now apply readable_queue|]. apply safe_sending. Qed.
Lemma safe_run_op o : safe (run_op o).
Proof. destruct o; cbn [run_op]; unfold peer_addr; safe; auto using safe_recv_from, safe_flush, safe_close, safe_send_to. Qed.

(** Opening a connection builds a new socket; nothing is asked of the old one. *)
Lemma safe_syn n : forall p, safe (syn_loop n p).
Proof. induction n as [|n IH]; intros p; cbn [syn_loop]; safe. Qed.
Definition born {A} (m : M A) : Prop := forall s, wp m (fun o s' => w_chk (wd s') = w_chk (wd s) /\ (forall a, o = Ret a -> ok s') /\
  forall l, o = Fail (Panic l) -> w_chk (wd s) = true /\ In l overflow_lines) s.
Lemma born_throw {A} k : born (@throw A k).
Proof. intros s. wstep. split; [reflexivity|]. split; discriminate. Qed.
Lemma born_pend {A} : born (@fail A Pend).
Proof. intros s. wstep. split; [reflexivity|]. split; discriminate. Qed.
Lemma born_known {A B} (a : A) (f : A -> M B) : born (f a) -> born (bind (ret a) f). Proof. exact (fun H => H). Qed.
Lemma born_try {A B} (r : result A kind) (f : A -> M B) : (forall a, born (f a)) -> born (bind (try_ r) f).
Proof. intros H. destruct r as [a|k]; [apply born_known, H|]. intros s. split; [reflexivity|]. split; discriminate. Qed.
Lemma born_open {B} src (f : unit -> M B) : (forall u, safe (f u)) -> born (bind (from_raw_parts src) f).
Proof.
  intros Hf s. apply wp_bind. unfold from_raw_parts. apply wp_bind. apply wp_rand. intros v _. cbv beta iota zeta. wstep.
  set (s1 := mkSt _ _). assert (HR : ok s1).
  { split; [constructor|]. split; [split; [cbn; lia|split; constructor]|]. split; [constructor|]. split; [constructor|]. intros _. cbn. lia. }
  eapply wp_conseq; [apply (Hf tt s1 HR)|]. intros o s' (C & R & P). split; [exact C|]. split; [intros _ _; exact R|exact P].
Qed.
Lemma bind_assoc {A B C} (m : M A) (f : A -> M B) (g : B -> M C) s : bind (bind m f) g s = bind m (fun a => bind (f a) g) s.
Proof. unfold bind. destruct (m s) as [[a|e] s']; reflexivity. Qed.
Lemma born_ext {A} (m m' : M A) : (forall s, m s = m' s) -> born m' -> born m.
Proof. intros H HB s. unfold wp. rewrite H. apply HB. Qed.
Lemma connect_born other bound : born (connect other bound).
Proof.
  unfold connect, take_address. destruct other as [[|a l]|k]; try (intros s; split; [reflexivity|split; discriminate]).
  apply born_known. unfold bind_socket, take_address. eapply born_ext; [intros s; apply bind_assoc|]. apply born_known.
  eapply born_ext; [intros s; apply bind_assoc|]. apply born_try. intros _. apply born_open. intros _.
  apply safe_bind; [safe|intros u]. apply safe_bind; [apply safe_sk|intros k]. apply safe_bind; [apply safe_syn|intros b]. apply safe_bind; [apply safe_sk|intros k'].
  destruct (parse_total b) as [[p|e] E]; rewrite E; cbn [unwrap]; apply safe_known; safe.
  apply safe_handle; [exact safe_call|]. pose proof (parse_inv b p E) as [-> _]; exact E.
Qed.
Lemma accept_born ev local bound : born (accept ev local bound).
Proof.
  unfold accept. destruct ev as [data src|k|]; [|apply born_throw|apply born_pend]. destruct (parse_total (firstn BUF_SIZE data)) as [[p|e] E]; rewrite E; cbn [unwrap]; apply born_known; [|apply born_throw].
  assert (HV : valid p) by (pose proof (parse_inv _ p E) as [-> _]; exact E). destruct (valid_type p HV) as [ty ET]. unfold m_get_type. rewrite ET. cbn [unwrap]. apply born_known.
  destruct (negb _); [apply born_throw|]. apply born_try. intros _. apply born_try. intros _. apply born_open. intros _ s HR.
  pose proof (safe_handle recv safe_call p src HV s HR) as HW. unfold wp in HW |- *. destruct (handle_packet recv p src s) as [[[r|]|[k|l| |]] s1]; cbn [fst snd] in HW |- *.
  2,3: split; [apply HW|split; [apply HW|discriminate]].
  2,3,4: eapply tame_fail; exact HW.
  match goal with |- tame s (fst (?m s1)) (snd (?m s1)) => assert (HS : safe m) by safe end. destruct HW as (C & R & _).
  specialize (HS s1 R). destruct HS as (C2 & R2 & P2). split; [congruence|]. split; [exact R2|]. rewrite <- C. exact P2.
Qed.
Lemma bind_born r b : born (bind_socket r b).
Proof.
  unfold bind_socket, take_address. destruct r as [[|a l]|k]; try (intros s; split; [reflexivity|split; discriminate]). apply born_known, born_try. intros _.
  eapply born_ext with (m' := bind (from_raw_parts a) ret); [intros s; unfold bind; destruct (from_raw_parts a s) as [[]]; reflexivity|]. apply born_open. intros; apply safe_ret.
Qed.
Lemma born_ret {A} (m : M A) s a s' : born m -> m s = (Ret a, s') -> ok s'.
Proof. intros H E. specialize (H s). unfold wp in H. rewrite E in H. destruct H as (_ & H & _). now apply (H a). Qed.
Lemma reachable_ok s : reachable s -> ok s.
Proof.
  induction 1.
  - eapply born_ret; [apply bind_born|eassumption].
  - eapply born_ret; [apply connect_born|eassumption].
  - eapply born_ret; [apply accept_born|eassumption].
  - pose proof (safe_run_op o s IHreachable) as HW. unfold wp in HW. rewrite H0 in HW. apply HW.
  - exact IHreachable.
Qed.
