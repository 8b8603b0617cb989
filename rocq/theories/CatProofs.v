(** The example program utpcat at both ends (C102). *)
From Verif Require Export SpecCat BulkProofs FixedProofs.
Require Import Lia ZifyBool ZifyNat ZifyN.
Local Open Scope Z_scope.
Ltac Zify.zify_post_hook ::= Z.div_mod_to_equations.

(** ** Programs that are ahead of the answers *)
Definition drives {A} (a : addr) (P : M A) (s : st) (E ps : list packet) : Prop :=
  forall i, (i < length ps)%nat -> exists k, (i < k)%nat /\ w_sent (wd (snd (P (arrive a (firstn i E) s)))) = w_sent (wd s) ++ map (pair a) (firstn k ps).
Lemma drives_bind {A B} a (P : M A) (Q : A -> M B) s E1 ps1 v s1 E2 ps2 : (forall more, leads more P P) -> (forall more x, leads more (Q x) (Q x)) -> P (arrive a E1 s) = (Ret v, s1) ->
  w_sent (wd s1) = w_sent (wd s) ++ map (pair a) ps1 -> length E1 = length ps1 -> w_sent (wd (snd (Q v (arrive a E2 s1)))) = w_sent (wd s1) ++ map (pair a) ps2 ->
  drives a P s E1 ps1 -> drives a (Q v) s1 E2 ps2 -> drives a (bind P Q) s (E1 ++ E2) (ps1 ++ ps2).
Proof.
  intros LP LQ EP S1 HL S2 D1 D2 i Hi.
  assert (EX : forall l, bind P Q (arrive a (E1 ++ l) s) = Q v (arrive a l s1)).
  { intros l. unfold bind. rewrite arrive_app. pose proof (proj1 (LP (map (fun r => RxDgram r a) l)) _ _ _ EP I) as H. change (ext (map (fun r => RxDgram r a) l)) with (arrive a l) in H. rewrite H. reflexivity. }
  destruct (Nat.lt_ge_cases i (length ps1)) as [H|H].
  - destruct (D1 i H) as (k & Hk & Hs). rewrite firstn_app. replace (i - length E1)%nat with 0%nat by lia. cbn [firstn]. rewrite app_nil_r.
    set (t := arrive a (firstn i E1) s) in *. assert (G : exists l, w_sent (wd (snd (bind P Q t))) = w_sent (wd (snd (P t))) ++ l).
    { unfold bind. destruct (P t) as [[x|e] u]; [exact (proj1 (proj2 (LQ [] x)) u)|exists []; now rewrite app_nil_r]. }
    destruct G as [l G]. assert (ET : arrive a (E1 ++ E2) s = arrive a (skipn i E1 ++ E2) t) by (unfold t; rewrite <- arrive_app, app_assoc, firstn_skipn; reflexivity).
    assert (LB : forall more, leads more (bind P Q) (bind P Q)) by (intros more; apply leads_bind; auto).
    destruct (proj2 (proj2 (LB (map (fun r => RxDgram r a) (skipn i E1 ++ E2)))) t) as [l2 G2]. change (ext (map (fun r => RxDgram r a) (skipn i E1 ++ E2)) t) with (arrive a (skipn i E1 ++ E2) t) in G2.
    rewrite <- ET, EX, S2, S1, G, Hs, <- !app_assoc in G2. apply app_inv_head in G2. rewrite <- map_app, app_assoc in G2. apply prefix_firstn in G2.
    exists (length (map (pair a) (firstn k ps1) ++ l)). split; [rewrite app_length, map_length, firstn_length; lia|]. rewrite <- (firstn_map (pair a) (length (map (pair a) (firstn k ps1) ++ l)) (ps1 ++ ps2)), <- G2, G, Hs, <- app_assoc. reflexivity.
  - rewrite app_length in Hi. destruct (D2 (i - length ps1)%nat ltac:(lia)) as (k & Hk & Hs). exists (length ps1 + k)%nat. split; [lia|].
    rewrite firstn_app, firstn_all2 by lia. rewrite EX, HL, Hs, S1, <- app_assoc, firstn_app_2, map_app. reflexivity.
Qed.
Lemma leads_send_to more d : leads more (send_to d) (send_to d).
Proof. unfold send_to. apply leads_bind; [apply leads_get|]. intros k. destruct (sstate_eqb _ _); [apply leads_throw|]. apply leads_bind; [apply leads_upd|]. intros _. apply leads_bind; [apply leads_send_call|]. intros _. apply leads_ret. Qed.
Lemma leads_send_all more ds : leads more (send_all ds) (send_all ds).
Proof. induction ds as [|d ds IH]; cbn [send_all]; [apply leads_ret|]. apply leads_bind; [apply leads_send_to|]. intros _. exact IH. Qed.

(** ** Messages sent one after the other *)
Definition pieces (ds : list (list byte)) : list (list byte) := flat_map (chunks 1380) ds.
Lemma pieces_packets ds : Z.of_nat (length (pieces ds)) = all_packets ds.
Proof. induction ds as [|d ds IH]; [reflexivity|]. cbn [pieces flat_map all_packets fold_right]. fold (pieces ds). fold (all_packets ds). rewrite app_length, Nat2Z.inj_add, packets_chunks, IH. reflexivity. Qed.
Lemma read_each_app a n ps1 cs1 qs1 y y1 : read_each a n ps1 cs1 qs1 y y1 -> forall ps2 cs2 qs2 y2, read_each a n ps2 cs2 qs2 y1 y2 -> read_each a n (ps1 ++ ps2) (cs1 ++ cs2) (qs1 ++ qs2) y y2.
Proof. induction 1; intros; cbn [app]; [assumption|]. econstructor; eauto. Qed.
Lemma read_each_lengths a n ps cs qs y y' : read_each a n ps cs qs y y' -> length cs = length ps /\ length qs = length ps.
Proof. induction 1 as [|? ? ? ? ? ? ? ? ? _ _ _ _ [H1 H2]]; [split; reflexivity|]. cbn [length]. lia. Qed.
Lemma chunks_ok (d : list byte) : Forall (fun c => 0 < length c <= 1380)%nat (chunks 1380 d).
Proof. apply Forall_forall. intros c Hc. apply (chunks_sizes 1380 d c); [lia|exact Hc]. Qed.
Lemma send_all_runs long ax ay n ds : forall a fl rs s y, (1380 <= n)%nat -> (long = true -> Forall (fun c : list byte => (13 <= length c)%nat) (pieces ds)) -> under long ay (s_seq_nr (sk y)) a fl rs (length (pieces ds)) s -> s_unsent_queue (sk s) = [] -> s_seq_nr (sk s) = (a + Z.of_nat (length fl)) mod 65536 ->
  s_sender_connection_id (sk s) = s_receiver_connection_id (sk y) -> s_sender_connection_id (sk y) = s_receiver_connection_id (sk s) -> at_ease y -> ready (a + Z.of_nat (length fl)) y -> reachable s ->
  exists E ps s' y' a' fl' rs', send_all ds (arrive ay E s) = (Ret tt, s') /\ under long ay (s_seq_nr (sk y)) a' fl' rs' 0 s' /\ reachable s' /\ s_unsent_queue (sk s') = [] /\ s_seq_nr (sk s') = (a' + Z.of_nat (length fl')) mod 65536 /\
    s_sender_connection_id (sk s') = s_sender_connection_id (sk s) /\ s_receiver_connection_id (sk s') = s_receiver_connection_id (sk s) /\
    w_sent (wd s') = w_sent (wd s) ++ map (pair ay) ps /\ read_each ax n ps (pieces ds) E y y' /\ at_ease y' /\ reader (sk y) (sk y') /\ ready (a' + Z.of_nat (length fl')) y' /\ drives ay (send_all ds) s E ps.
Proof.
  induction ds as [|d ds IH]; intros a fl rs s y Hn HLo HM HU HQ I1 I2 HY HR RS.
  - exists [], [], s, y, a, fl, rs. rewrite arrive_nil. cbn [map]. rewrite app_nil_r. split; [reflexivity|]. do 7 (split; [first [assumption|reflexivity]|]). split; [constructor|]. split; [exact HY|]. split; [apply reader_refl|]. split; [exact HR|]. intros i Hi. cbn in Hi. lia.
  - change (pieces (d :: ds)) with (chunks 1380 d ++ pieces ds) in *. rewrite app_length in HM.
    assert (HLo1 : long = true -> Forall (fun c : list byte => (13 <= length c)%nat) (chunks 1380 d)) by (intros HT; specialize (HLo HT); apply Forall_app in HLo; apply HLo).
    assert (HLo2 : long = true -> Forall (fun c : list byte => (13 <= length c)%nat) (pieces ds)) by (intros HT; specialize (HLo HT); apply Forall_app in HLo; apply HLo).
    destruct (queue_laid (chunks 1380 d) (a + Z.of_nat (length fl)) (sk s) (chunks_ok d) HQ) as (un & HLd & EQ). rewrite HU in EQ. cbn [app] in EQ. pose proof (laid_length _ _ _ _ HLd) as LN. rewrite <- LN in HM, EQ.
    set (k0 := fold_left (fun k c => queue_chunk c k) (chunks 1380 d) (sk s)) in *. set (s0 := mkSt k0 (wd s)).
    assert (HMq : forall N, midway ay (s_seq_nr (sk y)) a fl rs N s -> midway ay (s_seq_nr (sk y)) a fl rs N s0).
    { clear HM. intros N HM. destruct HM as [M1 M2 M3 M4 M5 M6 M7 M8 M9 M10 M12 M13 M14 M15]. assert (OK0 : ok s0) by (apply (readable_queue (chunks 1380 d)); exact M5).
      constructor; try exact OK0; try (change (sk s0) with k0; rewrite EQ; sproj); try assumption. }
    assert (HM0 : under long ay (s_seq_nr (sk y)) a fl rs (length un + length (pieces ds)) s0).
    { destruct long; [|apply HMq; exact HM]. destruct HM as (U0 & U1 & U2 & U3 & U4 & U5). split; [apply HMq; exact U0|]. split; [exact U1|]. split; [exact U2|]. change (sk s0) with k0. rewrite EQ. sproj. auto. }
    assert (KQ : s_unsent_queue k0 = un /\ s_sender_connection_id k0 = s_sender_connection_id (sk s) /\ s_receiver_connection_id k0 = s_receiver_connection_id (sk s) /\ s_seq_nr k0 = (a + Z.of_nat (length fl) + Z.of_nat (length un)) mod 65536) by (rewrite EQ; auto).
    destruct KQ as (KQ1 & KQ2 & KQ3 & KQ4). pose proof (m_state _ _ _ _ _ _ _ (under_midway _ _ _ _ _ _ _ _ HM)) as SX. clear EQ.
    destruct (bulk_loop long ax ay n (length (pieces ds)) un (chunks 1380 d) a fl rs s0 y Hn HLo1 HM0 KQ1) as (E1 & ps1 & s1 & y1 & a1 & fl1 & rs1 & EL & HM1 & HN1 & HK1 & _ & _ & HS1 & HRs & HY1 & HRd1 & HR1 & HCa);
      [change (sk s0) with k0; rewrite KQ2; exact HLd|change (sk s0) with k0; congruence|change (sk s0) with k0; congruence|exact HY|exact HR|].
    assert (ES : forall l, send_to d (arrive ay l s) = bind (loop (S (length un)) sbody tt) (fun _ => ret (zlen d)) (arrive ay l s0)).
    { intros l. unfold send_to, bind at 1, get_sk at 1. change (sk (arrive ay l s)) with (sk s). rewrite SX. cbn [sstate_eqb]. unfold bind at 1, upd_sk at 1. change (sk (arrive ay l s)) with (sk s). change CHUNK with 1380%nat.
      change (fold_left (fun s c => queue_chunk c s) (chunks 1380 d) (sk s)) with k0. change (mkSt k0 (wd (arrive ay l s))) with (arrive ay l s0). unfold bind at 1. rewrite send_eq. change (sk (arrive ay l s0)) with k0. rewrite KQ1 at 1. reflexivity. }
    assert (E1' : send_to d (arrive ay E1 s) = (Ret (zlen d), s1)) by (rewrite ES; unfold bind; rewrite EL; reflexivity).
    pose proof (op_reachable _ _ _ _ (arrive_reachable ay E1 s RS) (run_send_to _ _ _ _ E1')) as RS1.
    change (sk s0) with k0 in HK1. destruct HK1 as (G1 & G2 & G3 & G4 & G5 & G6 & G8 & G7). sproj_in G2. sproj_in G3. sproj_in G4. sproj_in G8. pose proof HRd1 as (D1 & D2 & D3 & D4 & D5).
    destruct (IH a1 fl1 rs1 s1 y1 Hn HLo2) as (E2 & ps2 & s2 & y2 & a2 & fl2 & rs2 & EL2 & HM2 & RS2 & U2 & Q2 & C1 & C2 & HS2 & HRs2 & HY2 & HRd2 & HR2 & HD2);
      [rewrite D4; exact HM1|exact G8|rewrite G4, HN1; exact KQ4|congruence|congruence|exact HY1|rewrite HN1; exact HR1|exact RS1|].
    rewrite D4 in HM2. destruct (read_each_lengths _ _ _ _ _ _ _ HRs) as [LE1 LE1'].
    assert (HD1 : drives ay (send_to d) s E1 ps1).
    { intros i Hi. destruct (HCa i Hi) as (k & Hk & Hs). exists k. split; [exact Hk|]. rewrite ES. unfold bind at 1. destruct (loop _ sbody tt (arrive ay (firstn i E1) s0)) as [[[]|e] t]; exact Hs. }
    exists (E1 ++ E2), (ps1 ++ ps2), s2, y2, a2, fl2, rs2. split.
    { cbn [send_all]. unfold bind. rewrite arrive_app. pose proof (proj1 (leads_send_to (map (fun r => RxDgram r ay) E2) d) _ _ _ E1' I) as H. change (ext (map (fun r => RxDgram r ay) E2)) with (arrive ay E2) in H. rewrite H. exact EL2. }
    split; [exact HM2|]. split; [exact RS2|]. split; [exact U2|]. split; [exact Q2|]. split; [congruence|]. split; [congruence|].
    split; [rewrite HS2, HS1, map_app, app_assoc; reflexivity|]. split; [eapply read_each_app; eassumption|]. split; [exact HY2|]. split; [eapply reader_trans; eassumption|]. split; [exact HR2|].
    cbn [send_all]. apply (drives_bind ay (send_to d) (fun _ => send_all ds) s E1 ps1 (zlen d) s1 E2 ps2); [intros; apply leads_send_to|intros; apply leads_send_all|exact E1'|exact HS1|exact LE1'|rewrite EL2; exact HS2|exact HD1|exact HD2].
Qed.
Lemma concat_pieces ds : concat (pieces ds) = concat ds.
Proof. induction ds as [|d ds IH]; [reflexivity|]. change (pieces (d :: ds)) with (chunks 1380 d ++ pieces ds). rewrite concat_app, IH, chunks_concat by lia. reflexivity. Qed.
Lemma pieces_ne ds : Forall (fun c => c <> []) (pieces ds).
Proof. induction ds as [|d ds IH]; [constructor|]. apply Forall_app. split; [|exact IH]. eapply Forall_impl; [|apply chunks_ok]. intros c Hc ->. cbn in Hc. lia. Qed.

(** ** Closing with packets in flight *)
Lemma close_flushed s s1 : s_state (sk s) = Connected -> flush s = (Ret tt, s1) -> s_state (sk s1) = Connected -> s_send_window (sk s1) = [] -> close s = close s1.
Proof.
  intros S0 F S1 W1.
  assert (EF : flush s1 = (Ret tt, s1)) by (rewrite flush_eq; cbn [loop]; unfold bind at 1, flush_body, bind at 1, get_sk at 1; rewrite W1; reflexivity).
  assert (EC : forall t, s_state (sk t) = Connected -> close t = bind flush (fun _ => send_fin ;;; upd_sk (ss_state FinSent) ;;; fuel <- event_fuel ;; loop fuel cbody tt) t) by (intros t St; unfold close, bind at 1, get_sk at 1; rewrite St; reflexivity).
  rewrite (EC s S0), (EC s1 S1). set (K := fun _ : unit => _). change (bind flush K s) with (match flush s with (Ret a, t) => K a t | (Fail e, t) => (Fail e, t) end).
  change (bind flush K s1) with (match flush s1 with (Ret a, t) => K a t | (Fail e, t) => (Fail e, t) end). rewrite F, EF. reflexivity.
Qed.
(** From two ends at ease: all pieces, then the end. *)
(** Not too much data, or clocks and pieces for which the window keeps the sender within reach. *)
Definition bounded (long : bool) (ds : list (list byte)) (x : st) : Prop :=
  if long then lead x <= 900 /\ Forall (fun c : list byte => (13 <= length c)%nat) (pieces ds) /\ s_remote_wnd_size (sk x) <= 1048576 /\ prompt_clock (wd x) else lead x + all_packets ds <= 32769.
Lemma cat_body long ax ay n ds x y : joined ax ay x y -> listens x y -> bounded long ds x -> (1380 <= n)%nat ->
  exists ps qs fin q x' y1 y', bind (send_all ds) (fun _ => close) (arrive ay (qs ++ [q]) x) = (Ret tt, x') /\ sent_to ay (ps ++ [fin]) x x' /\ s_state (sk x') = Closed /\
    read_each ax n ps (pieces ds) qs y y1 /\ at_ease y1 /\ run_op (ORecvFrom n) (arrive ax [fin] y1) = (Ret (VData [] ax), y') /\ sent_to ax [q] y1 y' /\ s_state (sk y') = Closed /\
    drives ay (bind (send_all ds) (fun _ => close)) x (qs ++ [q]) (ps ++ [fin]).
Proof.
  intros (HX & HY & AX & AY & I1 & I2) (HA & HD & HL) HP Hn. pose proof HX as (RX & SX & PX & BX & WX & UX & MX & IX & TX).
  pose proof (reachable_ranges x RX) as NX. pose proof (r_seq _ NX) as QX. pose proof (r_lacked _ NX) as LX. pose proof HY as (RY & _). pose proof (reachable_ranges y RY) as NY.
  fold (lead x) in HL. set (a := s_last_acked (sk x) + lead x). assert (EA : s_seq_nr (sk x) = a mod 65536) by (unfold a, lead; lia).
  assert (CX : s_curr_window (sk x) = 0) by (pose proof (reachable_inflight x RX) as H; unfold inflight in H; rewrite WX in H; exact H). pose proof (pieces_packets ds) as LP.
  assert (HMn : forall N, lead x + Z.of_nat N <= 32769 -> midway ay (s_seq_nr (sk y)) a [] [] N x).
  { intros N HN. constructor; try assumption; try reflexivity.
    - apply (reachable_ok x RX).
    - exact (conj (r_scid _ NX) (r_rcid _ NX)).
    - exact (r_seq _ NY).
    - exists (s_last_acked (sk x)). split; [symmetry; apply Z.mod_small; exact LX|]. cbn [length]. unfold a. lia. }
  assert (HM : under long ay (s_seq_nr (sk y)) a [] [] (length (pieces ds)) x).
  { destruct long; [|apply HMn; cbn [bounded] in HP; lia]. destruct HP as (P1 & P2 & P3 & P4). split; [apply HMn; lia|]. split; [constructor|]. split; [cbn; lia|]. split; [|auto].
    exists (s_last_acked (sk x)). split; [symmetry; apply Z.mod_small; exact LX|]. unfold a. lia. }
  assert (HRd : ready a y). { unfold ready. rewrite EA in HA, HD. split; [|exact HD]. destruct HA as [HA|HA]; [left; rewrite HA; lia|right; exact HA]. }
  destruct (send_all_runs long ax ay n ds a [] [] x y Hn ltac:(intros HT; rewrite HT in HP; apply HP) HM UX) as (E & ps & x1 & y1 & a' & fl' & rs' & EL & HM1 & RX1 & U1 & Q1 & C1 & C2 & HS1 & HRs & HY1 & HRd1 & HR1 & HD1);
    [cbn [length]; rewrite Z.add_0_r; exact EA|exact I1|exact I2|exact HY|cbn [length]; rewrite Z.add_0_r; exact HRd|exact RX|].
  apply under_midway in HM1. destruct (flush_all ay (s_seq_nr (sk y)) fl' a' rs' x1 HM1) as (x2 & E2 & HM2 & HK2 & HS2 & _). pose proof (op_reachable _ _ _ _ RX1 (run_flush _ _ E2)) as RX2.
  destruct HK2 as (G1 & G2 & G3 & G4 & G5 & G6 & G8 & G7). destruct HRd1 as (D1 & D2 & D3 & D4 & D5 & _). pose proof HM2 as [M1 M2 M3 M4 M5 M6 M7 M8 M9 M10 M12 M13 M14 M15].
  assert (HJ : joined ax ay x2 y1).
  { split; [|split; [exact HY1|]]; [split; [exact RX2|]; repeat (split; [first [assumption|congruence]|]); exact M6|]. split; [exact M7|]. split; [congruence|]. split; congruence. }
  destruct (farewell_runs ax ay n x2 y1 HJ) as (x' & y' & fin & q & x3 & F1 & F2 & F3 & F4 & F5 & F6 & F7 & F8 & _).
  { destruct HR1 as [R1 _]. rewrite G4, Q1. destruct R1 as [R1|R1]; [left; rewrite R1; lia|right; exact R1]. }
  assert (EC : forall l, close (arrive ay l x1) = close (arrive ay l x2)).
  { intros l. apply close_flushed; [exact (m_state _ _ _ _ _ _ _ HM1)|exact (proj1 (leads_flush (map (fun r => RxDgram r ay) l)) _ _ _ E2 I)|exact M1|exact M10]. }
  assert (EX : close (arrive ay [q] x1) = (Ret tt, x')). { rewrite EC. cbn [run_op] in F5. unfold bind in F5. destruct (close (arrive ay [q] x2)) as [[[]|e] t]; [|discriminate]. now injection F5 as <-. }
  assert (EY : exists t, close x1 = (Fail Pend, t) /\ w_sent (wd t) = w_sent (wd x1) ++ map (pair ay) [fin]).
  { exists x3. rewrite <- (arrive_nil ay x1), EC, arrive_nil. cbn [run_op] in F1. unfold bind in F1. destruct (close x2) as [[[]|e] t]; [discriminate|]. injection F1 as -> <-. split; [reflexivity|]. rewrite arrive_nil, F2, HS2. reflexivity. }
  assert (SX' : w_sent (wd x') = w_sent (wd x1) ++ map (pair ay) [fin]) by (rewrite F6, HS2; reflexivity).
  destruct (read_each_lengths _ _ _ _ _ _ _ HRs) as [LE LE']. exists ps, E, fin, q, x', y1, y'. split.
  { unfold bind. rewrite arrive_app. pose proof (proj1 (leads_send_all (map (fun r => RxDgram r ay) [q]) ds) _ _ _ EL I) as H. change (ext (map (fun r => RxDgram r ay) [q])) with (arrive ay [q]) in H. rewrite H. exact EX. }
  split; [unfold sent_to; rewrite SX', HS1, map_app, app_assoc; reflexivity|]. split; [exact F7|]. split; [exact HRs|]. split; [exact HY1|]. split; [exact F3|]. split; [exact F4|]. split; [exact F8|].
  apply (drives_bind ay (send_all ds) (fun _ => close) x E ps tt x1 [q] [fin]); [intros; apply leads_send_all|intros; apply leads_close|exact EL|exact HS1|exact LE'|rewrite EX; exact SX'|exact HD1|].
  intros [|i] Hi; [|cbn in Hi; lia]. exists 1%nat. split; [lia|]. cbn [firstn]. rewrite arrive_nil. destruct EY as (t & EY & ST). rewrite EY. exact ST.
Qed.

(** ** What the reader prints *)
Lemma each_prints a b n ps cs qs y y1 : read_each a n ps cs qs y y1 -> Forall (fun c => c <> []) cs -> forall more y2, run_op (ORecvFrom n) (arrive a more y1) = (Ret (VData [] b), y2) -> prints n (concat cs) (arrive a (ps ++ more) y) y2.
Proof.
  induction 1 as [y|p ps c cs q qs y y1 y2 H0 H1 H2 H3 IH]; intros HF more z HE; [cbn; eapply prints_end; exact HE|].
  inversion HF; subst. cbn [concat app]. eapply prints_more; [|assumption|apply IH; eassumption].
  change (p :: ps ++ more) with ([p] ++ ps ++ more). rewrite arrive_app. exact (proj1 (leads_run_op (map (fun r => RxDgram r a) (ps ++ more)) (ORecvFrom n)) _ _ _ H1 I).
Qed.
Lemma each_shows a n ps cs qs y y1 : read_each a n ps cs qs y y1 -> Forall (fun c => c <> []) cs -> run_op (ORecvFrom n) y1 = (Fail Pend, y1) ->
  forall j, exists out more t, shows n out (arrive a (firstn j ps) y) t /\ out ++ more = concat cs /\ sent_to a (firstn j qs) y t.
Proof.
  induction 1 as [y|p ps c cs q qs y y1 y2 H0 H1 H2 H3 IH]; intros HF HE j.
  - exists [], [], y. rewrite !firstn_nil, arrive_nil. split; [apply shows_end; exact HE|]. split; [reflexivity|]. unfold sent_to. cbn [map]. now rewrite app_nil_r.
  - inversion HF; subst. destruct j as [|j].
    + exists [], (concat (c :: cs)), y. cbn [firstn]. rewrite arrive_nil. split; [apply shows_end; exact H0|]. split; [reflexivity|]. unfold sent_to. cbn [map]. now rewrite app_nil_r.
    + destruct (IH ltac:(assumption) HE j) as (out & more & t & S1 & S2 & S3). exists (c ++ out), more, t. cbn [firstn concat]. split; [|split; [rewrite <- app_assoc, S2; reflexivity|unfold sent_to in *; rewrite S3, H2, <- app_assoc; reflexivity]].
      eapply shows_more; [|assumption|exact S1]. change (p :: firstn j ps) with ([p] ++ firstn j ps). rewrite arrive_app. exact (proj1 (leads_run_op (map (fun r => RxDgram r a) (firstn j ps)) (ORecvFrom n)) _ _ _ H1 I).
Qed.

(** ** A bound socket and a SYN *)
Lemma recv_from_skip n s src s1 : s_pending_data (sk s) = [] -> s_incoming_buffer (sk s) = [] -> s_state (sk s) <> ResetReceived -> s_state (sk s) <> Closed -> recv n s = (Ret ([], src), s1) ->
  s_pending_data (sk s1) = [] -> s_incoming_buffer (sk s1) = [] -> s_state (sk s1) = Connected -> length (w_in (wd s)) = S (length (w_in (wd s1))) -> recv_from n s = recv_from n s1.
Proof.
  intros P0 B0 R0 C0 ER P1 B1 S1 HL. unfold recv_from. unfold bind at 1. rewrite (flush_empty n s P0 B0). unfold bind at 1, get_sk at 1. cbn [is_nil negb].
  replace (sstate_eqb (s_state (sk s)) ResetReceived) with false by (destruct (s_state (sk s)); congruence || reflexivity).
  assert (EC : sstate_eqb (s_state (sk s)) Closed = false) by (destruct (s_state (sk s)); congruence || reflexivity).
  symmetry. unfold bind at 1. rewrite (flush_empty n s1 P1 B1). unfold bind at 1, get_sk at 1. cbn [is_nil negb]. rewrite S1. cbn [sstate_eqb]. symmetry.
  unfold bind at 1, event_fuel. erewrite loop_step; [rewrite HL; reflexivity|]. unfold bind at 1, get_sk at 1. rewrite EC. unfold bind. rewrite ER. reflexivity.
Qed.
Lemma bound_syn n p src b : reachable b -> fresh_tx (sk b) -> s_state (sk b) = New -> w_in (wd b) = [] -> all_sent b ->
  length p = 20%nat -> packet_try_from p = Some (Ok p) -> get_type p = Some PSyn -> connection_id p < 65535 ->
  exists r s, recv n (arrive src [p] b) = (Ret ([], src), s) /\ syn_reply p (s_seq_nr (sk s)) r /\ length r = 20%nat /\ w_sent (wd s) = w_sent (wd b) ++ [(src, r)] /\ w_in (wd s) = [] /\ w_send (wd s) = w_send (wd b) /\
    opened_by p src (next_random b) (sk s) /\ fresh_tx (sk s) /\ wnd_size r = 1048576.
Proof.
  intros RB HF HS HI HX HL HV HT HC. pose proof HF as (_ & _ & _ & _ & HM & _). set (b1 := arrive src [p] b).
  assert (EI : w_in (wd b1) = RxDgram p src :: []) by (unfold b1, arrive; cbn [wd]; sproj; rewrite HI; reflexivity).
  rewrite (recv_first n p src [] b1 EI ltac:(change (sk b1) with (sk b); lia)).
  assert (HV' : packet_try_from (firstn (BUF_SIZE + HEADER_SIZE) p) = Some (Ok p)) by (change (BUF_SIZE + HEADER_SIZE)%nat with 1520%nat; rewrite firstn_all2 by lia; exact HV).
  rewrite (process_packet _ n _ src p PSyn _ HV' HT). unfold bind at 1.
  destruct (syn_fresh (recv_fuel (length (w_in (wd b1)))) p src (rx_state b1) HS HT HC HF) as (t & E & HO & HF' & rt & HW). rewrite E.
  assert (HX1 : all_sent (ticked t)) by (unfold all_sent, ticked; cbn [wd]; rewrite HW; exact HX).
  unfold answer, bind at 1. unfold bind at 1. rewrite send_ok_eq by (apply all_sent_ok; exact HX1). cbn [try_]. unfold ret at 1. unfold bind at 1, get_sk at 1. cbn [ptype_eqb andb]. unfold bind at 1, ret at 1.
  unfold bind at 1. pose proof HF' as (F1 & F2 & _). rewrite flush_empty by assumption. unfold ret at 1.
  set (r := set_wnd_size WINDOW_SIZE (reply_to p PState t)). exists r. eexists. split; [reflexivity|]. change (next_random (rx_state b1)) with (next_random b) in HO.
  pose proof (proj2 (syn_tail p src _ t HO (next_random_range b)) WINDOW_SIZE) as HR. fold r in HR. unfold tx_state. rewrite (all_sent_ok _ HX1). unfold ticked. sproj.
  split; [destruct HO as (_ & _ & _ & _ & _ & _ & ->); exact HR|]. split; [unfold r, reply_to; rewrite set_wnd_wire, wire_length; reflexivity|].
  rewrite HW. unfold ticked, rx_state. sproj. split; [reflexivity|]. split; [rewrite EI; reflexivity|]. split; [reflexivity|]. split; [exact HO|]. split; [exact HF'|]. unfold r, reply_to. rewrite set_wnd_wire, wnd_wire. reflexivity.
Qed.

Lemma pieces_short ds : Forall whole_packets ds -> Forall (fun c : list byte => (13 <= length c)%nat) (pieces ds).
Proof. induction 1 as [|d ds H1 H2 IH]; [constructor|]. cbn [pieces flat_map]. apply Forall_app. split; [apply chunks_short; exact H1|exact IH]. Qed.
Lemma cat_all (long : bool) ac asv l l' ds n c0 s0 : untouched c0 -> untouched s0 -> (1380 <= n)%nat ->
  (if long then Forall whole_packets ds /\ prompt_clock (wd c0) else all_packets ds <= 32768) -> cat_runs ac asv l l' ds n c0 s0.
Proof.
  intros (CS & CI & CX) (SS & SI & SX) Hn HP. pose proof (next_random_range c0) as HR.
  set (syn := snd (syn_at (Z.min (next_random c0) 65534) 1 asv c0 0)).
  assert (Slen : length syn = 20%nat) by (unfold syn, syn_at; cbn [snd]; rewrite wire_length; reflexivity).
  assert (Sval : packet_try_from syn = Some (Ok syn)) by (apply wire_valid; constructor).
  assert (Sty : get_type syn = Some PSyn) by (unfold syn, syn_at; cbn [snd]; rewrite get_type_wire; reflexivity).
  assert (Scid : connection_id syn = Z.min (next_random c0) 65534) by (unfold syn, syn_at; cbn [snd]; rewrite cid_wire; cbn [h_cid]; apply u16_small; lia).
  assert (Sseq : seq_nr syn = 1) by (unfold syn, syn_at; cbn [snd]; rewrite seq_wire; reflexivity).
  assert (ESyn : map (syn_at (Z.min (next_random c0) 65534) 1 asv c0) (seq 0 1) = [(asv, syn)]) by reflexivity. clearbody syn.
  (* the server's socket *)
  set (b := snd (cat_bind asv l' s0)). assert (EB : forall ps, cat_bind asv l' (arrive ac ps s0) = (Ret tt, arrive ac ps b)) by reflexivity.
  assert (EB0 : cat_bind asv l' s0 = (Ret tt, b)) by reflexivity.
  assert (RB : reachable b) by (eapply rc_bind; [exact SS|exact EB0]). assert (FB : fresh_tx (sk b)) by (repeat split; reflexivity). assert (NB : s_state (sk b) = New) by reflexivity.
  assert (IB : w_in (wd b) = []) by exact SI. assert (WB : w_sent (wd b) = w_sent (wd s0)) by reflexivity. assert (XB : all_sent b) by exact SX. clearbody b.
  destruct (bound_syn n syn ac b RB FB NB IB XB Slen Sval Sty ltac:(lia)) as (r & s & E1 & (R1 & R2 & R3 & R4 & R5 & R6 & R7) & Rlen & L1 & J1 & W1 & (O1 & O2 & O3 & O4 & O5 & O6 & O7) & (F1 & F2 & F3 & F4 & F5 & F6 & F7) & R8).
  assert (EF : forall ps, run_op (ORecvFrom n) (arrive ac (syn :: ps) b) = run_op (ORecvFrom n) (arrive ac ps s)).
  { intros ps. cbn [run_op]. unfold bind. destruct FB as (B1 & B2 & _).
    rewrite (recv_from_skip n (arrive ac (syn :: ps) b) ac (arrive ac ps s)); [reflexivity|exact B1|exact B2|change (s_state (sk b) <> ResetReceived); rewrite NB; discriminate|change (s_state (sk b) <> Closed); rewrite NB; discriminate| |exact F1|exact F2|exact O2|].
    - change (syn :: ps) with ([syn] ++ ps). rewrite arrive_app. exact (proj1 (leads_call (map (fun r => RxDgram r ac) ps) n) _ _ _ E1 I).
    - unfold arrive. cbn [wd]. sproj. rewrite IB, J1. reflexivity. }
  assert (EW : forall t, w_in (wd t) = [] -> s_max_retries (sk t) = 5 -> s_pending_data (sk t) = [] -> s_incoming_buffer (sk t) = [] -> s_state (sk t) = Connected \/ s_state (sk t) = New -> run_op (ORecvFrom n) t = (Fail Pend, t)).
  { intros t T1 T2 T3 T4 T5. cbn [run_op]. unfold bind at 1, recv_from, bind at 1. rewrite (flush_empty n t T3 T4). unfold bind at 1, get_sk at 1. cbn [is_nil negb].
    replace (sstate_eqb (s_state (sk t)) ResetReceived) with false by (destruct T5 as [-> | ->]; reflexivity).
    unfold bind at 1, event_fuel. cbn [loop]. unfold bind at 1, bind at 1, get_sk at 1. replace (sstate_eqb (s_state (sk t)) Closed) with false by (destruct T5 as [-> | ->]; reflexivity).
    unfold bind at 1. rewrite (recv_waits n t T1 ltac:(lia)). reflexivity. }
  pose proof (EW s J1 F5 F1 F2 (or_introl O2)) as ES. assert (EBw : run_op (ORecvFrom n) b = (Fail Pend, b)) by (destruct FB as (B1 & B2 & B3 & B4 & B5 & _); apply EW; auto).
  assert (RS : reachable s). { eapply rc_op; [apply (arrive_reachable ac [syn] b RB)|rewrite EF, arrive_nil; exact ES|]. intros x. discriminate. }
  (* the client's *)
  destruct (connect_stamps asv l [] r asv r [] (arrive asv [r] c0)) as (c & E2 & (Z1 & Z2 & Z3 & Z4 & Z5 & Z6 & Z7 & Z8 & Z9 & Z10 & Z11 & Z12 & Z13 & Z14 & Z15 & Z16) & I2 & L2 & W2 & TC);
    [unfold arrive; cbn [wd]; sproj; rewrite CI; reflexivity|constructor|cbn; lia|exact CX|rewrite firstn_all2 by lia; exact R1|exact R2|].
  destruct (connect_waits asv l [] c0) as (c1 & E0 & L0); [exact CI|constructor|cbn; lia|exact CX|].
  change (next_random (arrive asv [r] c0)) with (next_random c0) in Z6, Z7, L2. cbn [length] in L0, L2. rewrite ESyn in L0. change (w_sent (wd (arrive asv [r] c0))) with (w_sent (wd c0)) in L2.
  change (syn_at (Z.min (next_random c0) 65534) 1 asv (arrive asv [r] c0)) with (syn_at (Z.min (next_random c0) 65534) 1 asv c0) in L2. rewrite ESyn in L2.
  assert (RC : reachable c) by (eapply rc_connect; [|exact E2]; exact CS).
  assert (HJ : joined ac asv c s).
  { split; [|split; [|split; [exact Z2|split; [exact O1|split; [rewrite Z7, O4, Scid; symmetry; apply Z.mod_small; lia|rewrite Z6, O3; exact Scid]]]]].
    - split; [exact RC|]. repeat (split; [assumption|]). split; [lia|]. split; [exact I2|]. intros i. rewrite W2. apply CX.
    - split; [exact RS|]. repeat (split; [assumption|]). split; [lia|]. split; [exact J1|]. intros i. rewrite W1. apply XB. }
  assert (HLs : listens c s). { unfold listens. rewrite O5, O6, Z4, Z5, R4, Sseq. split; [left; reflexivity|]. split; [discriminate|]. cbn; lia. }
  assert (HLd : lead c = 1) by (unfold lead; rewrite Z4, Z5, R4, Sseq; reflexivity).
  pose proof (envfix_connect (Ok (asv :: l)) (Ok tt) (arrive asv [r] c0)) as (K2 & _). rewrite E2 in K2. cbn [snd] in K2. change (w_clock (wd (arrive asv [r] c0))) with (w_clock (wd c0)) in K2.
  assert (HB : bounded long ds c).
  { destruct long; [|cbn [bounded]; lia]. destruct HP as (P1 & P2). split; [lia|]. split; [apply pieces_short; exact P1|]. split; [rewrite Z8, R8; lia|]. unfold prompt_clock. rewrite K2. exact P2. }
  destruct (cat_body long ac asv n ds c s HJ HLs HB Hn) as (ps & qs & fin & q & c' & y1 & s' & G1 & G2 & G3 & G4 & G5 & G6 & G7 & G8 & G9).
  destruct (read_each_lengths _ _ _ _ _ _ _ G4) as [LE LE']. destruct (read_at_once _ _ _ _ _ _ _ G4) as [_ SR].
  exists (syn :: ps ++ [fin]), (r :: qs ++ [q]), c', (arrive ac (syn :: ps ++ [fin]) b), s'. split; [cbn [length]; rewrite !app_length; cbn [length]; lia|]. split.
  { unfold cat_client, bind at 1. change (r :: qs ++ [q]) with ([r] ++ (qs ++ [q])). rewrite arrive_app. pose proof (proj1 (leads_connect (map (fun r => RxDgram r asv) (qs ++ [q])) (Ok (asv :: l)) (Ok tt)) _ _ _ E2 I) as H.
    change (ext (map (fun r => RxDgram r asv) (qs ++ [q]))) with (arrive asv (qs ++ [q])) in H. rewrite H. exact G1. }
  split; [unfold sent_to in *; rewrite G2, L2, <- app_assoc; reflexivity|]. split; [exact G3|]. split; [apply EB|]. split; [|split; [|split; [exact G8|split]]].
  - pose proof (each_prints ac ac n _ _ _ _ _ G4 (pieces_ne ds) [fin] s' G6) as HPr. rewrite concat_pieces in HPr. inversion HPr as [x1 x2 x3 HE|d a0 out x2 x3 x4 HE Hne HPr']; subst.
    + eapply prints_end. rewrite EF. exact HE.
    + eapply prints_more; [rewrite EF; exact HE|exact Hne|exact HPr'].
  - unfold sent_to in *. rewrite G7, SR, L1, WB, <- !app_assoc. cbn [map]. rewrite map_app. reflexivity.
  - intros i Hi. pose proof (drives_bind asv (connect (Ok (asv :: l)) (Ok tt)) (fun _ => bind (send_all ds) (fun _ => close)) c0 [r] [syn] tt c (qs ++ [q]) (ps ++ [fin])) as HDr.
    destruct (HDr) with (i := i) as (k & Hk & Hs); clear HDr; [intros; apply leads_connect|intros; apply leads_bind; [apply leads_send_all|intros; apply leads_close]|exact E2|exact L2|reflexivity|rewrite G1; exact G2| |exact G9| |exists k; split; [exact Hk|exact Hs]].
    + intros [|i'] Hi'; [|cbn in Hi'; lia]. exists 1%nat. split; [lia|]. cbn [firstn]. rewrite arrive_nil, E0. exact L0.
    + cbn [length] in Hi. rewrite app_length in Hi. cbn [length] in Hi. rewrite !app_length. cbn [length]. lia.
  - intros [|j] Hj.
    + exists b, [], (concat ds), b. cbn [firstn]. rewrite arrive_nil. split; [exact EB0|]. split; [apply shows_end; exact EBw|]. split; [reflexivity|]. unfold sent_to. cbn [map]. rewrite app_nil_r. exact WB.
    + cbn [firstn]. cbn [length] in Hj. rewrite app_length in Hj. cbn [length] in Hj. replace (firstn j (ps ++ [fin])) with (firstn j ps) by (rewrite firstn_app; replace (j - length ps)%nat with 0%nat by lia; cbn [firstn]; now rewrite app_nil_r).
      replace (firstn j (qs ++ [q])) with (firstn j qs) by (rewrite firstn_app; replace (j - length qs)%nat with 0%nat by lia; cbn [firstn]; now rewrite app_nil_r).
      destruct (each_shows ac n _ _ _ _ _ G4 (pieces_ne ds) (read_waits n y1 G5) j) as (out & more & t & S1 & S2 & S3). rewrite concat_pieces in S2.
      exists (arrive ac (syn :: firstn j ps) b), out, more, t. split; [apply EB|]. split; [|split; [exact S2|unfold sent_to in *; rewrite S3, L1, WB, <- app_assoc; reflexivity]].
      inversion S1 as [x1 x2 HE|d a0 out' x2 x3 x4 HE Hne S1']; subst.
      * eapply shows_end. rewrite EF. exact HE.
      * eapply shows_more; [rewrite EF; exact HE|exact Hne|exact S1'].
Qed.
