(** Two endpoints composed (C59): the connecting side sends, the accepting side reads. *)
From Verif Require Export SenderProofs StreamRxProofs.
Require Import ZifyBool ZifyNat ZifyN.
Local Open Scope Z_scope.
Ltac Zify.zify_post_hook ::= Z.div_mod_to_equations.

(** A network that loses, duplicates, delays and reorders datagrams of the log, or turns them into something that is no
    packet; State and Reset packets are lost. *)
Definition carried (log : list (addr * packet)) (e : rx) : Prop :=
  forall p, delivers e p -> In p (map snd log) /\ (get_type p = Some PData \/ get_type p = Some PFin \/ get_type p = Some PSyn).
(** Number of packets a history needs for its data. *)
Fixpoint packets_needed (ops : list op) (s : st) : Z :=
  match ops with [] => 0 | o :: rest => (Z.of_nat (length (taken o s)) + 1379) / 1380 + packets_needed rest (snd (run_op o s)) end.

Lemma chunks_fuel_count {A} fuel : forall (l : list A), (length l <= fuel)%nat -> Z.of_nat (length (chunks_fuel fuel 1380 l)) = (Z.of_nat (length l) + 1379) / 1380.
Proof.
  induction fuel as [|f IH]; intros l HL; [destruct l; [reflexivity|cbn in HL; lia]|]. destruct l as [|x l]; [reflexivity|].
  cbn [chunks_fuel]. cbn [length]. rewrite Nat2Z.inj_succ, IH by (rewrite skipn_length; cbn [length] in *; lia). rewrite skipn_length. cbn [length]. lia.
Qed.
Lemma cut_count ops : forall s, Z.of_nat (length (cut ops s)) = packets_needed ops s.
Proof.
  induction ops as [|o ops IH]; intros s; cbn [cut packets_needed]; [reflexivity|]. rewrite app_length, Nat2Z.inj_add, IH. f_equal. now apply chunks_fuel_count.
Qed.
Definition is_send (o : op) : Prop := match o with OSendTo _ => True | _ => False end.
Lemma cut_nosend ops : forall s, Forall (fun o => ~ is_send o) ops -> cut ops s = [].
Proof.
  induction ops as [|o ops IH]; intros s H; cbn [cut]; [reflexivity|]. inversion H as [|? ? Ho Hr]; subst. rewrite IH by exact Hr.
  destruct o; cbn in Ho; try tauto; unfold taken; destruct (s_state (sk s)); reflexivity.
Qed.
Lemma cut_app ops1 : forall ops2 s, existsb panicked (fst (run_ops ops1 s)) = false -> cut (ops1 ++ ops2) s = cut ops1 s ++ cut ops2 (snd (run_ops ops1 s)) /\
  run_ops (ops1 ++ ops2) s = (fst (run_ops ops1 s) ++ fst (run_ops ops2 (snd (run_ops ops1 s))), snd (run_ops ops2 (snd (run_ops ops1 s)))).
Proof.
  induction ops1 as [|o ops1 IH]; intros ops2 s H; cbn [app cut run_ops] in *.
  - cbn [fst snd]. split; [reflexivity|]. now destruct (run_ops ops2 s).
  - destruct (run_op o s) as [v s1] eqn:E. assert (HV : not_panic v) by (intros l ->; cbn in H; discriminate).
    specialize (IH ops2 s1). cbn [snd]. destruct (run_ops ops1 s1) as [rs s2] eqn:E1. cbn [fst snd] in IH.
    destruct v as [v|[k|l| |]]; try (now destruct (HV l)); cbn [fst snd existsb] in H; apply orb_false_elim in H as [_ H]; destruct (IH H) as [I1 I2]; rewrite I1, I2, app_assoc; cbn [fst snd]; split; reflexivity.
Qed.
Lemma panicked_app ops1 ops2 s : existsb panicked (fst (run_ops (ops1 ++ ops2) s)) = false -> existsb panicked (fst (run_ops ops1 s)) = false.
Proof.
  revert s. induction ops1 as [|o ops1 IH]; intros s H; cbn [app run_ops] in *; [reflexivity|]. destruct (run_op o s) as [v s1].
  specialize (IH s1). destruct (run_ops (ops1 ++ ops2) s1) as [rs s2], (run_ops ops1 s1) as [rs' s2'].
  destruct v as [v|[k|l| |]]; cbn [fst existsb] in *; try exact H; apply orb_false_elim in H as [H1 H2]; rewrite H1, (IH H2); reflexivity.
Qed.

Theorem end_to_end a l c0 c data src la r0 x r ops1 ops2 acks evs ns :
  w_sent (wd c0) = [] -> connect (Ok (a :: l)) (Ok tt) c0 = (Ret tt, c) -> s_state (sk c) = Connected ->
  In data (map snd (w_sent (wd c))) -> accept (RxDgram data src) (Ok la) (Ok tt) r0 = (Ret x, r) ->
  let s := mkSt (sk c) (sw_in acks (wd c)) in
  let s' := snd (run_ops (ops1 ++ ops2) s) in
  existsb panicked (fst (run_ops (ops1 ++ ops2) s)) = false -> ~ In OClose ops1 -> Forall (fun o => ~ is_send o) ops2 ->
  packets_needed (ops1 ++ ops2) s < 65533 ->
  all_sends_succeed r -> Forall (carried (w_sent (wd s'))) evs -> Forall (fun n => 0 < n)%nat ns ->
  prefix_of (bytes_read (fst (run_ops (map ORecvFrom ns) (mkSt (sk r) (sw_in evs (wd r)))))) (stream_sent (ops1 ++ ops2) s).
Proof.
  intros H0 HC HS HD HA s s' HN HO1 HO2 HL HX HE HF.
  destruct (connect_ready a l c0 c H0 HC HS) as (cid & HI & HY & H1 & H2 & H3 & H4 & H5).
  assert (HW : forall p, In p (map snd (w_sent (wd c))) -> exists t, p = wire (mkHdr PSyn cid t 0 0 1 0) [] []).
  { intros p Hp. apply in_map_iff in Hp as (y & <- & Hy). unfold syns_to in HY. rewrite Forall_forall in HY. destruct (HY y Hy) as (_ & t & _ & E). exists t. exact E. }
  destruct (HW data HD) as (t & Hdata).
  assert (HPD : packet_try_from (firstn 1500 data) = Some (Ok data)).
  { rewrite firstn_all2 by (rewrite Hdata, wire_length; cbn; lia). rewrite Hdata. apply wire_valid. constructor. }
  assert (HCID : connection_id data = cid) by (rewrite Hdata, cid_wire; cbn [h_cid]; rewrite u16_small; lia).
  assert (HSEQ : seq_nr data = 1) by (rewrite Hdata, seq_wire; reflexivity).
  destruct (accept_reader data src data la r0 x r HPD ltac:(lia) HA) as (HR & R1 & R2). rewrite HSEQ in HR. rewrite HCID in R1, R2.
  set (r' := mkSt (sk r) (sw_in evs (wd r))).
  pose proof (panicked_app _ _ _ HN) as HN1. destruct (cut_app ops1 ops2 s HN1) as [EC ER].
  set (total := cut (ops1 ++ ops2) s) in *. set (s1 := snd (run_ops ops1 s)) in *.
  assert (EC2 : cut ops2 s1 = []) by now apply cut_nosend. rewrite EC2, app_nil_r in EC.
  assert (EN2 : existsb panicked (fst (run_ops ops2 s1)) = false).
  { rewrite ER in HN. cbn [fst] in HN. rewrite existsb_app in HN. now apply orb_false_elim in HN as [_ HN]. }
  assert (HS0 : stays (u16 (2 + Z.of_nat (length (@nil (list byte))))) (cid + 1) s) by (split; [unfold s; cbn [sk]; rewrite H1; split; discriminate|auto]).
  assert (HP0 : opre G0 (Wc 2 (cid + 1) total) s) by (split; [split; [apply evs_ok_G0|]|]; unfold s; cbn [sk]; rewrite ?H4, ?H5; constructor).
  assert (HT1 : total = [] ++ cut ops1 s ++ []) by (rewrite app_nil_r; exact EC).
  destruct (ops_log 2 (cid + 1) total false ops1 (or_intror HO1) s [] [] HT1 HS0 HP0 ltac:(intros _; unfold quiet_fin, s; cbn [sk]; rewrite H1; discriminate) HN1) as (HS1 & HP1 & _ & xs1 & L1 & X1).
  fold s1 in HS1, HP1, L1. cbn [app] in HS1. rewrite <- EC in HS1.
  destruct (ops_log 2 (cid + 1) total true ops2 (or_introl eq_refl) s1 total [] ltac:(rewrite EC2, !app_nil_r; reflexivity) HS1 HP1 ltac:(discriminate) EN2) as (_ & _ & _ & xs2 & L2 & X2).
  assert (ELog : w_sent (wd s') = w_sent (wd c) ++ xs1 ++ xs2) by (unfold s'; rewrite ER; cbn [snd]; rewrite L2, L1; unfold s; cbn [wd w_sent sw_in]; now rewrite app_assoc).
  rewrite <- cut_concat. fold total. rewrite <- cut_count in HL. fold total in HL.
  change (wd r') with (sw_in evs (wd r)).
  assert (HZ : Forall (fun c => c <> []) total).
  { apply Forall_forall. intros y Hy. apply cut_sizes in Hy. intros ->. cbn in Hy. lia. }
  apply (reader_prefix 1 total r' ns); auto; try lia.
  apply Forall_forall. intros e He. rewrite Forall_forall in HE. specialize (HE e He). cbn [sk r']. rewrite R1, R2. intros p Hp. destruct (HE p Hp) as [Hin HT].
  rewrite ELog, !map_app in Hin. apply in_app_or in Hin as [Hin|Hin]; [|apply in_app_or in Hin as [Hin|Hin]].
  - destruct (HW p Hin) as (t' & ->). split; [left; rewrite cid_wire; cbn [h_cid]; apply u16_small; lia|]. right. right. split; [apply get_type_wire|]. rewrite seq_wire. reflexivity.
  - apply in_map_iff in Hin as (y & <- & Hy). rewrite Forall_forall in X1. destruct (X1 y Hy) as (m & _ & [HM|[HM|[HM|(HM & _)]]]); try (exfalso; rewrite HM in HT; intuition discriminate); [|discriminate].
    apply Wc_says in HM as (j & ch & J1 & _ & J2 & J3 & J4 & J5). split; [right; rewrite J5; apply Z.mod_small; lia|]. left. exists j. split; [exact J2|]. split; [rewrite J4; f_equal; lia|]. eauto.
  - apply in_map_iff in Hin as (y & <- & Hy). rewrite Forall_forall in X2. destruct (X2 y Hy) as (m & Hm & [HM|[HM|[HM|(_ & M1 & M2 & M3)]]]); try (exfalso; rewrite HM in HT; intuition discriminate).
    + apply Wc_says in HM as (j & ch & J1 & _ & J2 & J3 & J4 & J5). split; [right; rewrite J5; apply Z.mod_small; lia|]. left. exists j. split; [exact J2|]. split; [rewrite J4; f_equal; lia|]. eauto.
    + rewrite EC2 in Hm. cbn in Hm. assert (m = 0%nat) by lia. subst m. rewrite Nat.add_0_r in M2.
      split; [right; rewrite M3; apply u16_small; lia|]. right. left. split; [exact M1|]. rewrite M2, !u16_eq, Z.mod_mod by lia. f_equal.
Qed.

(** ** C60 *)
Lemma original_data_cut ops s : reachable s -> s_state (sk s) <> New -> s_state (sk s) <> SynSent ->
  s_send_window (sk s) = [] -> s_unsent_queue (sk s) = [] -> existsb panicked (fst (run_ops ops s)) = false ->
  exists xs, w_sent (wd (snd (run_ops ops s))) = w_sent (wd s) ++ xs /\
    forall dest p, In (dest, p) xs -> get_type p = Some PData ->
      exists j c, nth_error (cut ops s) j = Some c /\ packet_try_from p = Some (Ok p) /\ payload p = Some c /\ seq_nr p = (s_seq_nr (sk s) + Z.of_nat j) mod 65536 /\
        connection_id p = s_sender_connection_id (sk s).
Proof.
  intros HR H1 H2 H3 H4 HN. destruct (reachable_ranges s HR).
  destruct (ops_log (s_seq_nr (sk s)) (s_sender_connection_id (sk s)) (cut ops s) true ops (or_introl eq_refl) s [] []) as (_ & _ & _ & xs & E & HX); auto.
  - now rewrite app_nil_r.
  - split; [split; assumption|]. cbn [length]. rewrite Z.add_0_r, u16_small by lia. auto.
  - split; [split; [apply evs_ok_G0|rewrite H3; constructor]|rewrite H4; constructor].
  - discriminate.
  - exists xs. split; [exact E|]. intros dest p Hp HT. rewrite Forall_forall in HX. destruct (HX _ Hp) as (m & _ & [HM|[HM|[HM|(_ & HM & _)]]]); cbn [snd] in HM; try congruence.
    apply Wc_says in HM as (j & c & J1 & J0 & J2 & J3 & J4 & J5). exists j, c. rewrite Z.mod_small in J5 by lia. auto 10.
Qed.
Theorem original_data ops s : reachable s -> s_state (sk s) <> New -> s_state (sk s) <> SynSent ->
  s_send_window (sk s) = [] -> s_unsent_queue (sk s) = [] -> existsb panicked (fst (run_ops ops s)) = false ->
  exists cs xs, concat cs = stream_sent ops s /\ (forall c, In c cs -> (1 <= length c <= 1380)%nat) /\
    w_sent (wd (snd (run_ops ops s))) = w_sent (wd s) ++ xs /\
    forall dest p, In (dest, p) xs -> get_type p = Some PData ->
      exists j c, nth_error cs j = Some c /\ packet_try_from p = Some (Ok p) /\ payload p = Some c /\ seq_nr p = (s_seq_nr (sk s) + Z.of_nat j) mod 65536 /\
        connection_id p = s_sender_connection_id (sk s).
Proof.
  intros HR H1 H2 H3 H4 HN. destruct (original_data_cut ops s HR H1 H2 H3 H4 HN) as (xs & E & HX). exists (cut ops s), xs.
  split; [apply cut_concat|]. split; [apply cut_sizes|]. auto.
Qed.
Theorem same_number ops s : reachable s -> s_state (sk s) <> New -> s_state (sk s) <> SynSent ->
  s_send_window (sk s) = [] -> s_unsent_queue (sk s) = [] -> existsb panicked (fst (run_ops ops s)) = false -> packets_needed ops s <= 65536 ->
  exists xs, w_sent (wd (snd (run_ops ops s))) = w_sent (wd s) ++ xs /\
    forall d1 p1 d2 p2, In (d1, p1) xs -> In (d2, p2) xs -> get_type p1 = Some PData -> get_type p2 = Some PData -> seq_nr p1 = seq_nr p2 -> payload p1 = payload p2.
Proof.
  intros HR H1 H2 H3 H4 HN HL. destruct (original_data_cut ops s HR H1 H2 H3 H4 HN) as (xs & E & HX). exists xs. split; [exact E|].
  intros d1 p1 d2 p2 I1 I2 T1 T2 ES. destruct (HX _ _ I1 T1) as (j1 & c1 & N1 & _ & P1 & S1 & _). destruct (HX _ _ I2 T2) as (j2 & c2 & N2 & _ & P2 & S2 & _).
  rewrite P1, P2. rewrite S1, S2 in ES. rewrite <- cut_count in HL.
  assert ((j1 < length (cut ops s))%nat) by (apply nth_error_Some; congruence). assert ((j2 < length (cut ops s))%nat) by (apply nth_error_Some; congruence).
  assert (j1 = j2) by lia. subst. congruence.
Qed.
