(** Proofs for PropSuite: the tests of [handle_packet] for every random draw, clock and build. *)
From Verif Require Import SpecSuite RecvProofs ConnProofs BufferProofs TableProofs.
From Coq Require Import ZifyBool.
Local Open Scope Z_scope.
Ltac Zify.zify_post_hook ::= Z.div_mod_to_equations.

Lemma bare_wire t w id sq ak : bare t w id sq ak = wire (mkHdr t id 0 0 w sq ak) [] [].
Proof. unfold bare. now rewrite packet_new_wire, set_wnd_wire, set_type_wire, set_cid_wire, set_seq_wire, set_ack_wire. Qed.
Lemma loaded_wire pl id sq ak : loaded pl id sq ak = wire (mkHdr PData id 0 0 1500 sq ak) [] pl.
Proof. unfold loaded. now rewrite with_payload_wire, set_wnd_wire, set_cid_wire, set_seq_wire, set_ack_wire. Qed.

(** A connection on which nothing was sent, with nothing buffered. *)
Record idle (id rnd a : Z) (s : st) : Prop := {
  id_state : s_state (sk s) = Connected; id_send : s_sender_connection_id (sk s) = id; id_recv : s_receiver_connection_id (sk s) = (id + 1) mod 65536;
  id_seq : s_seq_nr (sk s) = rnd; id_ack : s_ack_nr (sk s) = a; id_buf : s_incoming_buffer (sk s) = []; id_win : s_send_window (sk s) = [];
  id_dup : 0 <= s_duplicate_ack_count (sk s) <= 2 }.

Section Runs.
  Variable id : Z.
  Hypothesis Hid : 0 <= id < 65536.

  Lemma established s : (w_chk (wd s) = true -> id < 65535) -> exists r t, handle_packet recv (bare PSyn 1500 id 0 0) there (mkSt (fresh_socket (sequential_identifiers (u16 (w_rand (wd s) (w_rtick (wd s))))) here) (sw_rtick (S (w_rtick (wd s))) (wd s))) = (Ret (Some r), t) /\
    typed PState r = true /\ connection_id r = id /\ ack_nr r = 0 /\ no_payload r = true /\ 0 <= seq_nr r < 65536 /\ idle id (seq_nr r) 0 t /\ s_duplicate_ack_count (sk t) = 0 /\ w_chk (wd t) = w_chk (wd s).
  Proof.
    intros HC. set (p := bare PSyn 1500 id 0 0). set (b := mkSt _ _).
    assert (HP : p = wire (mkHdr PSyn id 0 0 1500 0 0) [] []) by apply bare_wire.
    assert (TY : get_type p = Some PSyn) by (rewrite HP, get_type_wire; reflexivity).
    assert (CI : connection_id p = id) by (rewrite HP, cid_wire; cbn [h_cid]; apply u16_small; lia).
    assert (SQ : seq_nr p = 0) by (rewrite HP, seq_wire; reflexivity).
    destruct (syn_new recv p there b) as (r & t & E & HO & HR & _ & _ & _ & HW & _); [reflexivity|exact TY|intros H; rewrite CI; apply HC; exact H|].
    assert (HT : sk t = snd (table there p PSyn (clock_now b) (clock_now (ticked b)) (w_rand (wd b) (w_rtick (wd b))) (sk b))).
    { refine (proj1 (handle_table recv p PSyn there b _ t _ TY _ E _)); [cbn; lia|intros [_ H]; discriminate H|intros l H; discriminate H]. }
    exists r, t. split; [exact E|]. destruct HR as (_ & R1 & R2 & R3 & R4 & _ & R5).
    unfold typed, no_payload. rewrite R1, R2, R3, R4, R5, CI, SQ. pose proof (Z.mod_pos_bound (w_rand (wd b) (w_rtick (wd b))) 65536 eq_refl) as HN. fold (next_random b) in HN.
    destruct HO as (_ & O1 & O2 & O3 & O4 & _ & O5). split; [reflexivity|]. split; [reflexivity|]. split; [reflexivity|]. split; [reflexivity|]. split; [exact HN|].
    assert (F : s_incoming_buffer (sk t) = [] /\ s_send_window (sk t) = [] /\ s_duplicate_ack_count (sk t) = 0) by (rewrite HT; cbn; auto).
    destruct F as (F1 & F2 & F3). split; [constructor; try assumption; try congruence; lia|]. split; [exact F3|exact HW].
  Qed.

  Variables (rnd : Z) (Hrnd : 0 <= rnd < 65536).
  Lemma idle_noted a p s : idle id rnd a s -> idle id rnd (if (seq_nr p - a) mod 65536 =? 1 then seq_nr p else a) (noted p s).
  Proof.
    intros [H1 H2 H3 H4 H5 H6 H7 H8]. rewrite noted_seen. unfold seen. constructor; sproj; auto. rewrite H5. reflexivity.
  Qed.
  Lemma idle_ticked a s : idle id rnd a s -> idle id rnd a (ticked s).
  Proof. intros [H1 H2 H3 H4 H5 H6 H7 H8]. constructor; assumption. Qed.
  Lemma idle_own a p s : idle id rnd a s -> connection_id p = id \/ connection_id p = (id + 1) mod 65536 -> own_id (sk s) p.
  Proof. intros H. unfold own_id. rewrite (id_send _ _ _ _ H), (id_recv _ _ _ _ H). auto. Qed.

  Lemma answered a p s t : idle id rnd a s -> 0 <= a < 65536 -> exists x, attach_sack p (reply_to p t s) (ticked s) = (Ret x, ticked s) /\ typed t x = true /\ connection_id x = id /\ ack_nr x = a /\ seq_nr x = rnd /\ no_payload x = true.
  Proof.
    intros HI HA. unfold reply_to. rewrite attach_sack_exact by (right; right; exact (id_buf _ _ _ _ HI)). eexists. split; [reflexivity|].
    assert (HB : reply_bitmap p (sk (ticked s)) = []).
    { unfold reply_bitmap. change (s_incoming_buffer (sk (ticked s))) with (s_incoming_buffer (sk s)). rewrite (id_buf _ _ _ _ HI). cbn. now destruct (1 <? _). }
    rewrite HB. unfold typed, no_payload. rewrite get_type_wire, cid_wire, ack_wire, seq_wire, payload_wire by constructor. cbn [h_type h_cid h_ack h_seq].
    rewrite (id_send _ _ _ _ HI), (id_ack _ _ _ _ HI), (id_seq _ _ _ _ HI), !u16_small by lia. destruct t; auto.
  Qed.

  Lemma data_step a p s : idle id rnd a s -> get_type p = Some PData -> connection_id p = id \/ connection_id p = (id + 1) mod 65536 -> 0 <= a < 65536 ->
    let a' := if (seq_nr p - a) mod 65536 =? 1 then seq_nr p else a in
    exists r, handle_packet recv p there s = (Ret (Some r), ticked (noted p s)) /\ typed PState r = true /\ connection_id r = id /\ ack_nr r = a' /\ seq_nr r = rnd /\ no_payload r = true /\ idle id rnd a' (ticked (noted p s)) /\ 0 <= a' < 65536.
  Proof.
    intros HI HT HO HA a'. rewrite (handle_own recv p there PData s HT) by (left; eapply idle_own; eassumption). pose proof (idle_noted a p s HI) as HN. fold a' in HN.
    assert (HA' : 0 <= a' < 65536) by (unfold a'; pose proof (seq_nr_range p); destruct (_ =? 1); lia).
    unfold dispatch, handle_data_packet, bind, get_sk. rewrite (id_state _ _ _ _ HN). cbv zeta. rewrite prepare_reply_eq. rewrite ?(id_state _ _ _ _ HN). change (if sstate_eqb Connected FinSent then PFin else PState) with PState.
    destruct (answered a' p (noted p s) PState HN HA') as (x & E & T1 & T2 & T3 & T4 & T5). rewrite E. unfold ret. exists x. refine (conj eq_refl (conj T1 (conj T2 (conj T3 (conj T4 (conj T5 (conj _ HA'))))))). now apply idle_ticked.
  Qed.
  Lemma fin_step a p s : idle id rnd a s -> get_type p = Some PFin -> connection_id p = id \/ connection_id p = (id + 1) mod 65536 -> 0 <= a < 65536 ->
    let a' := if (seq_nr p - a) mod 65536 =? 1 then seq_nr p else a in
    exists r s', handle_packet recv p there s = (Ret (Some r), s') /\ typed PState r = true /\ ack_nr r = a' /\ seq_nr r = rnd.
  Proof.
    intros HI HT HO HA a'. rewrite (handle_own recv p there PFin s HT) by (left; eapply idle_own; eassumption). pose proof (idle_noted a p s HI) as HN. fold a' in HN.
    assert (HA' : 0 <= a' < 65536) by (unfold a'; pose proof (seq_nr_range p); destruct (_ =? 1); lia).
    unfold dispatch, bind, get_sk. rewrite (id_state _ _ _ _ HN). rewrite prepare_reply_eq.
    destruct (answered a' p (noted p s) PState HN HA') as (x & E & T1 & T2 & T3 & T4 & T5). rewrite E. unfold upd_sk, ret. exists x. eauto.
  Qed.
  Lemma state_step a p s : idle id rnd a s -> get_type p = Some PState -> connection_id p = id \/ connection_id p = (id + 1) mod 65536 -> extensions p = Some [] -> s_duplicate_ack_count (sk s) <= 1 ->
    let a' := if (seq_nr p - a) mod 65536 =? 1 then seq_nr p else a in
    exists s', handle_packet recv p there s = (Ret None, s') /\ idle id rnd a' s' /\ s_duplicate_ack_count (sk s') <= s_duplicate_ack_count (sk s) + 1.
  Proof.
    intros HI HT HO HX HD a'. rewrite (handle_own recv p there PState s HT) by (left; eapply idle_own; eassumption). pose proof (idle_noted a p s HI) as HN. fold a' in HN.
    assert (HD' : s_duplicate_ack_count (sk (noted p s)) = s_duplicate_ack_count (sk s)) by (rewrite noted_seen; reflexivity).
    set (u := noted p s) in *. unfold dispatch, bind at 1, get_sk at 1. rewrite (id_state _ _ _ _ HN).
    pose proof (id_dup _ _ _ _ HI) as D0. assert (NA : exists v, note_ack (ack_nr p) u = (Ret tt, v) /\ idle id rnd a' v /\ s_duplicate_ack_count (sk v) <= s_duplicate_ack_count (sk s) + 1).
    { destruct HN as [H1 H2 H3 H4 H5 H6 H7 H8]. unfold note_ack, bind, get_sk. destruct (ack_nr p =? s_last_acked (sk u)).
      - unfold ck_u32, arith. rewrite HD'. replace (_ && _) with false by lia. unfold upd_sk. eexists. split; [reflexivity|].
        rewrite u32_small by lia. split; [constructor; sproj; auto; lia|]. sproj. lia.
      - unfold upd_sk, now_microseconds. eexists. split; [reflexivity|]. split; [constructor; cbn; auto; lia|]. cbn. lia. }
    destruct NA as (v & E & HV & HV'). exists v. split; [|split; assumption].
    assert (HS : handle_state_packet recv p u = (Ret tt, v)).
    { unfold handle_state_packet, bind at 1. rewrite E. pose proof (id_win _ _ _ _ HV) as W. clear - HX W. destruct v as [k w]. destruct k. cbn in W. subst. cbn. unfold bind at 1. rewrite HX. reflexivity. }
    unfold bind. rewrite HS. reflexivity.
  Qed.
  Lemma foreign_step a p s : idle id rnd a s -> get_type p = Some PState -> connection_id p <> id -> connection_id p <> (id + 1) mod 65536 ->
    let a' := if (seq_nr p - a) mod 65536 =? 1 then seq_nr p else a in
    0 <= a' < 65536 -> exists r s', handle_packet recv p there s = (Ret (Some r), s') /\ typed PReset r = true /\ ack_nr r = a'.
  Proof.
    intros HI HT H1 H2 a' HA. rewrite (handle_foreign recv p there PState s HT); [|discriminate|rewrite (id_state _ _ _ _ HI); discriminate|unfold own_id; rewrite (id_send _ _ _ _ HI), (id_recv _ _ _ _ HI); tauto].
    eexists _, _. split; [reflexivity|]. unfold reply_to. cbn [sk]. rewrite acked_sk_eq. rewrite (id_ack _ _ _ _ HI). fold a'. unfold typed. rewrite get_type_wire, ack_wire. cbn [h_type h_ack]. sproj. now rewrite u16_small by lia.
  Qed.
End Runs.

(** ** The tests *)
Definition drawn (chk : bool) (id : Z) : Prop := 0 <= id < 65536 /\ (chk = true -> id < 65535).

Lemma bound_run {A} (m : unit -> M A) s : (x <- bind_to here ;; m x) s = m tt (mkSt (fresh_socket (sequential_identifiers (u16 (w_rand (wd s) (w_rtick (wd s))))) here) (sw_rtick (S (w_rtick (wd s))) (wd s))).
Proof. reflexivity. Qed.
Lemma replied_run {A} line m (f : packet -> M A) s r s' : m s = (Ret (Some r), s') -> (x <- some_reply line m ;; f x) s = f r s'.
Proof. intros E. unfold some_reply, bind. now rewrite E. Qed.
Lemma silent_run {A} line m (f : M A) s s' : m s = (Ret None, s') -> (expect_none line m ;;; f) s = f s'.
Proof. intros E. unfold expect_none, bind. now rewrite E. Qed.
Lemma assert_run {A} line b (f : M A) s : b = true -> (assert line b ;;; f) s = f s.
Proof. now intros ->. Qed.
Lemma assert_last line b s : b = true -> assert line b s = (Ret tt, s).
Proof. now intros ->. Qed.
Lemma ck16_run {A} line v (f : Z -> M A) s : 0 <= v < 65536 -> (x <- ck_u16 line v ;; f x) s = f v s.
Proof. intros H. unfold bind, ck_u16, arith. replace (negb _) with false by lia. rewrite andb_false_r. now rewrite u16_small by lia. Qed.

Ltac wires := rewrite ?bare_wire, ?loaded_wire, ?get_type_wire, ?cid_wire, ?seq_wire, ?ack_wire, ?extensions_wire by constructor; cbn [h_type h_cid h_seq h_ack map]; rewrite ?u16_small by lia.

Lemma handle_packet_test id s : 0 <= id < 65535 -> exists s', test_handle_packet id s = (Ret tt, s').
Proof.
  intros HI. unfold test_handle_packet. rewrite ck16_run by lia. rewrite bound_run. cbv zeta.
  destruct (established id ltac:(lia) s ltac:(lia)) as (r1 & t1 & E1 & P1 & P2 & P3 & P4 & P5 & I1 & _).
  erewrite replied_run by exact E1. rewrite !assert_run by (wires; lia || assumption).
  rewrite ck16_run by (wires; lia).
  assert (SQ : seq_nr (bare PSyn 1500 id 0 0) = 0) by now wires. rewrite SQ. change (0 + 1) with 1.
  set (d := bare PData 0 (id + 1) 1 (seq_nr r1)).
  assert (D1 : get_type d = Some PData) by (unfold d; now wires). assert (D2 : connection_id d = id + 1) by (unfold d; wires; lia). assert (D3 : seq_nr d = 1) by (unfold d; now wires).
  destruct (data_step id ltac:(lia) (seq_nr r1) ltac:(lia) 0 d t1 I1 D1 ltac:(right; lia) ltac:(lia)) as (r2 & E2 & Q1 & Q2 & Q3 & Q4 & Q5 & I2 & _).
  rewrite D3 in Q3, I2. change ((1 - 0) mod 65536 =? 1) with true in Q3, I2. cbv iota in Q3, I2.
  erewrite replied_run by exact E2. rewrite !assert_run by (lia || assumption). rewrite ck16_run by lia. rewrite !assert_run by (lia || assumption).
  rewrite ck16_run by lia. rewrite D3. change (1 + 1) with 2.
  set (f := bare PFin 0 (id + 1) 2 (seq_nr r2)).
  assert (F1 : get_type f = Some PFin) by (unfold f; now wires). assert (F2 : connection_id f = id + 1) by (unfold f; wires; lia). assert (F3 : seq_nr f = 2) by (unfold f; now wires).
  destruct (fin_step id ltac:(lia) (seq_nr r1) ltac:(lia) 1 f _ I2 F1 ltac:(right; lia) ltac:(lia)) as (r3 & t3 & E3 & Z1 & Z2 & Z3).
  rewrite F3 in Z2. change ((2 - 1) mod 65536 =? 1) with true in Z2. cbv iota in Z2.
  erewrite replied_run by exact E3. rewrite !assert_run by (lia || assumption). rewrite assert_last by lia. eauto.
Qed.

Lemma establish_run {A} id (f : packet -> M A) s : 0 <= id < 65536 -> (w_chk (wd s) = true -> id < 65535) ->
  exists r t, (x <- establish id ;; f x) s = f r t /\ 0 <= seq_nr r < 65536 /\ idle id (seq_nr r) 0 t /\ s_duplicate_ack_count (sk t) = 0.
Proof.
  intros HI HC. destruct (established id HI s HC) as (r & t & E & P1 & P2 & P3 & P4 & P5 & I1 & D & _). exists r, t. split; [|auto].
  unfold establish, bind at 1. rewrite bound_run. erewrite replied_run by exact E. rewrite assert_run by assumption. reflexivity.
Qed.
Lemma keepalive_test id s : 0 <= id < 65536 -> (w_chk (wd s) = true -> id < 65535) -> exists s', test_response_to_keepalive_ack id s = (Ret tt, s').
Proof.
  intros HI HC. unfold test_response_to_keepalive_ack. match goal with |- exists s', bind (establish id) ?f s = _ => destruct (establish_run id f s HI HC) as (r & t & -> & HR & I1 & D0) end.
  cbv zeta. set (k := bare PState 1500 id 1 (seq_nr r)).
  assert (K1 : get_type k = Some PState) by (unfold k; now wires). assert (K2 : connection_id k = id) by (unfold k; wires; lia). assert (K3 : extensions k = Some []) by (unfold k; now wires).
  destruct (state_step id (seq_nr r) 0 k t I1 K1 (or_introl K2) K3 ltac:(lia)) as (t1 & E1 & I2 & D1).
  erewrite silent_run by exact E1.
  destruct (state_step id (seq_nr r) _ k t1 I2 K1 (or_introl K2) K3 ltac:(lia)) as (t2 & E2 & _).
  erewrite silent_run by exact E2. unfold upd_sk. eauto.
Qed.
Lemma wrong_id_test id s : 0 <= id < 65536 -> (w_chk (wd s) = true -> id < 65535) -> 1 < id -> exists s', test_response_to_wrong_connection_id id s = (Ret tt, s').
Proof.
  intros HI HC H1. unfold test_response_to_wrong_connection_id. match goal with |- exists s', bind (establish id) ?f s = _ => destruct (establish_run id f s HI HC) as (r & t & -> & HR & I1 & _) end.
  cbv zeta. set (k := bare PState 1500 (u16 (id * 2)) 0 0).
  assert (K1 : get_type k = Some PState) by (unfold k; now wires). assert (K2 : connection_id k = (id * 2) mod 65536) by (unfold k; rewrite u16_eq; wires; lia). assert (K3 : seq_nr k = 0) by (unfold k; now wires).
  destruct (foreign_step id HI (seq_nr r) HR 0 k t I1 K1) as (x & t1 & E & X1 & X2); [rewrite K2; lia|rewrite K2; lia|rewrite K3; cbn; lia|].
  erewrite replied_run by exact E. rewrite K3 in *. change ((0 - 0) mod 65536 =? 1) with false in X2. cbv iota in X2. rewrite !assert_run by (lia || assumption). unfold upd_sk. eauto.
Qed.
(** In the two other cases the packet is not foreign at all. *)
Lemma wrong_id_fails id s : 0 <= id <= 1 -> exists s', test_response_to_wrong_connection_id id s = (Fail (Panic 1694), s').
Proof.
  intros HI. unfold test_response_to_wrong_connection_id. match goal with |- exists s', bind (establish id) ?f s = _ => destruct (establish_run id f s ltac:(lia) ltac:(lia)) as (r & t & -> & HR & I1 & D0) end.
  cbv zeta. set (k := bare PState 1500 (u16 (id * 2)) 0 0).
  assert (K1 : get_type k = Some PState) by (unfold k; now wires). assert (K2 : connection_id k = (id * 2) mod 65536) by (unfold k; rewrite u16_eq; wires; lia). assert (K3 : extensions k = Some []) by (unfold k; now wires).
  destruct (state_step id (seq_nr r) 0 k t I1 K1) as (t1 & E & _); [rewrite K2; lia|exact K3|lia|].
  unfold some_reply, bind. rewrite E. unfold fail. eauto.
Qed.
Lemma unordered_test id s : 0 <= id < 65536 -> (w_chk (wd s) = true -> id < 65535) -> exists s', test_unordered_packets id s = (Ret tt, s').
Proof.
  intros HI HC. unfold test_unordered_packets. match goal with |- exists s', bind (establish id) ?f s = _ => destruct (establish_run id f s HI HC) as (r & t & -> & HR & I1 & D0) end.
  cbv zeta. set (p1 := loaded _ _ 2 _). set (p0 := loaded _ _ 1 _).
  assert (A1 : get_type p1 = Some PData) by (unfold p1; now wires). assert (A2 : connection_id p1 = id) by (unfold p1; wires; lia). assert (A3 : seq_nr p1 = 2) by (unfold p1; now wires).
  assert (B1 : get_type p0 = Some PData) by (unfold p0; now wires). assert (B2 : connection_id p0 = id) by (unfold p0; wires; lia).
  destruct (data_step id HI (seq_nr r) HR 0 p1 t I1 A1 (or_introl A2) ltac:(lia)) as (r2 & E2 & Q1 & Q2 & Q3 & Q4 & Q5 & I2 & HA).
  erewrite replied_run by exact E2. rewrite A3 in Q3. change ((2 - 0) mod 65536 =? 1) with false in Q3. cbv iota in Q3. rewrite assert_run by (rewrite A3; lia).
  destruct (data_step id HI (seq_nr r) HR _ p0 _ I2 B1 (or_introl B2) HA) as (r3 & E3 & _).
  erewrite replied_run by exact E3. unfold upd_sk. eauto.
Qed.

(** Of the draw 65535 only the overflow matters. *)
Lemma overflow_run {A} (f : packet -> M A) s : w_chk (wd s) = true -> exists s', (x <- establish 65535 ;; f x) s = (Fail (Panic 888), s').
Proof.
  intros HC. unfold establish, bind at 1. rewrite bound_run. unfold some_reply, bind at 1. unfold bind at 1.
  assert (TY : get_type (bare PSyn 1500 65535 0 0) = Some PSyn) by (now wires). assert (CI : connection_id (bare PSyn 1500 65535 0 0) = 65535) by (now wires).
  rewrite (handle_own recv _ there PSyn _ TY) by auto. unfold dispatch, bind, get_sk. unfold noted at 1. sproj. rewrite (acked_other s_state) by reflexivity. cbn [s_state fresh_socket].
  unfold upd_sk, random_u16, ck_u16, arith. rewrite CI. cbn [sk wd]. unfold noted. cbn [wd ticked]. change (w_chk _) with (w_chk (wd s)). rewrite HC. cbn. eauto.
Qed.
Lemma quicktest_true x : quicktest x = true.
Proof.
  unfold quicktest. destruct (parse_total x) as [r E]. unfold packet_try_from in *. destruct (check_extensions x) as [[[]|e]|]; [| |discriminate].
  - destruct (header_try_from x); cbn; [|reflexivity]. unfold bytes_eqb. now destruct (list_eq_dec _ x x).
  - destruct (header_try_from x); reflexivity.
Qed.
Lemma draws_refuted :
  (forall id s, 0 <= id <= 1 -> exists s', test_response_to_wrong_connection_id id s = (Fail (Panic 1694), s')) /\
  (forall s, w_chk (wd s) = true ->
     (exists s', test_handle_packet 65535 s = (Fail (Panic 1514), s')) /\ (exists s', test_response_to_keepalive_ack 65535 s = (Fail (Panic 888), s')) /\
     (exists s', test_response_to_wrong_connection_id 65535 s = (Fail (Panic 888), s')) /\ (exists s', test_unordered_packets 65535 s = (Fail (Panic 888), s'))).
Proof.
  split; [intros; now apply wrong_id_fails|]. intros s HC. split; [|split; [|split]]; try (apply overflow_run; exact HC).
  unfold test_handle_packet, bind at 1, ck_u16, arith. rewrite HC. eexists. reflexivity.
Qed.
