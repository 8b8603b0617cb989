(** C61-C65: the stream adapter and the stream of incoming connections.  Statements, assumptions, examples. *)
From Verif Require Import AdapterProofs.
Local Open Scope Z_scope.

(** Streams that some schedule of arrivals and polls leads to. *)
Definition on_stream (t : stream) : Prop := exists s l rs, acts l (stream_new s) = (rs, t).
Lemma on_coherent t : on_stream t -> coherent t.
Proof. intros (s & l & rs & H). eapply coherent_acts; [apply coherent_new|exact H]. Qed.
(** Of the operations [l], none is a read (a write, a flush). *)
Definition no_read (l : list op) : Prop := forall n, ~ In (ORecvFrom n) l.
Definition no_write (l : list op) : Prop := forall d, ~ In (OSendTo d) l.
Definition no_flush (l : list op) : Prop := ~ In OFlush l.
Lemma no_mine sl (l : list op) o : Forall (foreign sl) l -> mine sl o = true -> ~ In o l.
Proof. intros H HM HI. rewrite Forall_forall in H. specialize (H o HI). unfold foreign in H. congruence. Qed.
Lemma no_mine_done sl (l : list (op * outcome value)) o : Forall (fun x => foreign sl (fst x)) l -> mine sl o = true -> ~ In o (map fst l).
Proof. intros H. apply no_mine. rewrite Forall_forall in *. intros x Hx. apply in_map_iff in Hx as (y & <- & Hy). now apply H. Qed.

(** ** C61 *)
(** A read: [l] is any schedule after which the read polled with [buf] is still pending, or not polled yet.  The poll
    that ends it reports the result of one [recv_from] on the socket, the only one started since.  Missing for the full
    statement: after an error the stream cannot be read any more (C61_error_refuted). *)
Theorem C61_read_partial : forall buf l t rs t1 g r t2, on_stream t -> t_slot t SlRead = None -> acts l t = (rs, t1) ->
  Forall2 (fun a r => match a with PollRead b _ => b = buf /\ r = Pending | _ => True end) l rs ->
  poll_read buf g t1 = (r, t2) -> r <> Pending ->
  exists v bg dn, run_op (ORecvFrom (length buf)) (t_st t1) = (v, t_st t2) /\
    t_begun t2 = t_begun t ++ bg ++ [ORecvFrom (length buf)] /\ no_read bg /\
    t_done t2 = t_done t ++ dn ++ [(ORecvFrom (length buf), v)] /\ no_read (map fst dn) /\ t_lock t2 = None /\
    match v with
    | Ret (VData d _) => r = Ready (Ok (SvRead (Z.of_nat (length d)) (d ++ skipn (length d) buf))) /\ t_slot t2 SlRead = None
    | Fail (Throw k) => r = Ready (Err k)
    | Fail (Panic l) => r = Crash (InSocket l)
    | _ => False
    end.
Proof.
  intros buf l t rs t1 g r t2 HO HN HA HW H HP. apply on_coherent in HO. assert (HW' : waits SlRead (is_poll_read buf) l rs).
  { eapply Forall2_weaken; [|exact HW]. intros [] y; cbn; try discriminate. intros [-> ->] _. split; [now exists grant|reflexivity]. }
  destruct (read_call buf l t rs t1 g r t2 HO HN HA HW' H HP) as (v & bg & dn & H1 & H2 & H3 & H4 & H5 & H6 & H7). exists v, bg, dn.
  repeat (split; [assumption || (intros n; (eapply no_mine; [eassumption|reflexivity]) || (eapply no_mine_done; [eassumption|reflexivity]))|]). exact H7.
Qed.
Print Assumptions C61_read_partial.
Theorem C61_write_partial : forall buf l t rs t1 g r t2, on_stream t -> t_slot t SlWrite = None -> acts l t = (rs, t1) ->
  Forall2 (fun a r => match a with PollWrite b _ => b = buf /\ r = Pending | _ => True end) l rs ->
  poll_write buf g t1 = (r, t2) -> r <> Pending ->
  exists v bg dn, run_op (OSendTo buf) (t_st t1) = (v, t_st t2) /\
    t_begun t2 = t_begun t ++ bg ++ [OSendTo buf] /\ no_write bg /\
    t_done t2 = t_done t ++ dn ++ [(OSendTo buf, v)] /\ no_write (map fst dn) /\ t_lock t2 = None /\
    match v with
    | Ret (VLen n) => r = Ready (Ok (SvLen n)) /\ t_slot t2 SlWrite = None
    | Fail (Throw k) => r = Ready (Err k)
    | Fail (Panic l) => r = Crash (InSocket l)
    | _ => False
    end.
Proof.
  intros buf l t rs t1 g r t2 HO HN HA HW H HP. apply on_coherent in HO. assert (HW' : waits SlWrite (is_poll_write buf) l rs).
  { eapply Forall2_weaken; [|exact HW]. intros [] y; cbn; try discriminate. intros [-> ->] _. split; [now exists grant|reflexivity]. }
  destruct (write_call buf l t rs t1 g r t2 HO HN HA HW' H HP) as (v & bg & dn & H1 & H2 & H3 & H4 & H5 & H6 & H7). exists v, bg, dn.
  repeat (split; [assumption || (intros n; (eapply no_mine; [eassumption|reflexivity]) || (eapply no_mine_done; [eassumption|reflexivity]))|]). exact H7.
Qed.
Print Assumptions C61_write_partial.
(** A flush, also when it fails: the stream is ready for the next operation. *)
Theorem C61_flush : forall l t rs t1 g r t2, on_stream t -> t_slot t SlFlush = None -> acts l t = (rs, t1) ->
  Forall2 (fun a r => match a with PollFlush _ => r = Pending | _ => True end) l rs ->
  poll_flush g t1 = (r, t2) -> r <> Pending ->
  exists v bg dn, run_op OFlush (t_st t1) = (v, t_st t2) /\
    t_begun t2 = t_begun t ++ bg ++ [OFlush] /\ no_flush bg /\
    t_done t2 = t_done t ++ dn ++ [(OFlush, v)] /\ no_flush (map fst dn) /\ t_lock t2 = None /\
    match v with
    | Ret _ => r = Ready (Ok SvUnit) /\ t_slot t2 SlFlush = None
    | Fail (Throw k) => r = Ready (Err k) /\ t_slot t2 SlFlush = None
    | Fail (Panic l) => r = Crash (InSocket l)
    | _ => False
    end.
Proof.
  intros l t rs t1 g r t2 HO HN HA HW H HP. apply on_coherent in HO. assert (HW' : waits SlFlush is_poll_flush l rs).
  { eapply Forall2_weaken; [|exact HW]. intros [] y; cbn; try discriminate. intros -> _. split; [now exists grant|reflexivity]. }
  destruct (flush_call l t rs t1 g r t2 HO HN HA HW' H HP) as (v & bg & dn & H1 & H2 & H3 & H4 & H5 & H6 & H7). exists v, bg, dn.
  repeat (split; [assumption || ((eapply no_mine; [eassumption|reflexivity]) || (eapply no_mine_done; [eassumption|reflexivity]))|]). exact H7.
Qed.
Print Assumptions C61_flush.
(** Several operations at once, polled in any order, from any clone: what they return is what the socket returns when it
    is called with the same operations one after the other, all events being there from the start. *)
Theorem C61_schedules : forall s l rs t, acts l (stream_new s) = (rs, t) -> (forall c, ~ In (Crash (InSocket c)) rs) -> ~ In DropOwnClose l ->
  run_ops (map fst (t_done t)) (arrive (arrived l) s) = (map snd (t_done t), t_st t).
Proof.
  intros s l rs t H HU HD. assert (HF : Forall unbroken rs). { apply Forall_forall. intros r Hr c ->. now elim (HU c). }
  apply (schedule_calls l s (stream_new s) rs t); auto. split; [reflexivity|constructor].
Qed.
Print Assumptions C61_schedules.
(** While one operation is suspended nothing else touches the socket. *)
Theorem C61_exclusive : forall t sl a r t', on_stream t -> t_lock t = Some sl -> owner a <> Some sl -> act a t = (r, t') ->
  t_lock t' = Some sl /\ t_slot t' sl = t_slot t sl /\ t_begun t' = t_begun t /\ t_done t' = t_done t /\ exists evs, t_st t' = arrive evs (t_st t).
Proof.
  intros t sl a r t' HO HL HA H. apply on_coherent in HO. assert (HC : sl <> SlClose). { intros ->. apply (co_holder _ HO) in HL as (o & b & n & E). rewrite (co_close _ HO) in E. discriminate. }
  destruct (aside_act sl a t r t' HO HC HA H) as (A & (bg & B1 & _ & B2) & (dn & D1 & _ & D2) & L). destruct (L HL) as [L1 L2].
  rewrite B1, D1, (B2 HL), (D2 HL), !app_nil_r. auto.
Qed.
Print Assumptions C61_exclusive.
(** A read polled three times - a write polled meanwhile waits for it -, then a second read. *)
Notation c61_data n c := (rx_pkt (dgram PData 101 n 499 [c])).
Notation c61_buf := [x00; x00; x00].
Notation c61_run := (acts [PollRead c61_buf true; Arrive [RxDgram [x41] peer]; PollWrite [x5a] true; PollRead c61_buf true; AskLocal (Ok local); Arrive [c61_data 11 x41; c61_data 12 x42];
  PollRead c61_buf true; PollRead c61_buf true; PollWrite [x5a] true; AskLocal (Ok local)] (stream_new (accepted true 500 10 []))).
Example C61_example : fst c61_run =
    [Pending; Ready (Ok SvUnit); Pending; Pending; Crash Locked; Ready (Ok SvUnit); Ready (Ok (SvRead 1 [x41; x00; x00])); Ready (Ok (SvRead 1 [x42; x00; x00])); Ready (Ok (SvLen 1)); Ready (Ok (SvAddr local))] /\
  t_begun (snd c61_run) = [ORecvFrom 3; ORecvFrom 3; OSendTo [x5a]].
Proof. vm_compute. auto. Qed.
(** The part of the statement that fails: after an error the stream is not ready for the next operation. *)
Theorem C61_error_refuted : exists s l t, reachable s /\ acts l (stream_new s) = ([Ready (Err KOther)], t) /\ fst (poll_read c61_buf true t) = Crash Resumed /\
  fst (run_op (ORecvFrom 3) (t_st t)) = Ret (VData [x41] peer). (* the socket itself goes on *)
Proof.
  set (s := accepted true 500 10 [RxErr KOther; c61_data 11 x41]). exists s, [PollRead c61_buf true], (snd (acts [PollRead c61_buf true] (stream_new s))).
  split; [apply accepted_reachable; vm_compute; reflexivity|]. split; [|split; vm_compute; reflexivity].
  assert (H : fst (acts [PollRead c61_buf true] (stream_new s)) = [Ready (Err KOther)]) by (vm_compute; reflexivity). rewrite <- H. apply surjective_pairing.
Qed.
Print Assumptions C61_error_refuted.

(** ** C62 *)
(** After every error of a read or write the next poll panics, whatever the buffer. *)
Theorem C62_refuted :
  (forall buf g t k t' buf' g', poll_read buf g t = (Ready (Err k), t') -> poll_read buf' g' t' = (Crash Resumed, t')) /\
  (forall buf g t k t' buf' g', poll_write buf g t = (Ready (Err k), t') -> poll_write buf' g' t' = (Crash Resumed, t')) /\
  (exists s, reachable s /\ fst (acts [PollRead c61_buf true; PollRead c61_buf true] (stream_new s)) = [Ready (Err KOther); Crash Resumed]) /\
  (exists s, reachable s /\ fst (acts [PollOwnClose true; PollWrite [x41] true; PollWrite [x41] true] (stream_new s)) = [Ready (Ok SvUnit); Ready (Err KNotConnected); Crash Resumed]).
Proof.
  split; [exact read_error_sticks|]. split; [exact write_error_sticks|]. split.
  - exists (accepted true 500 10 [RxErr KOther]). split; [apply accepted_reachable; vm_compute; reflexivity|vm_compute; reflexivity].
  - exists (accepted true 500 10 [rx_pkt (dgram PFin 101 11 500 [])]). split; [apply accepted_reachable; vm_compute; reflexivity|vm_compute; reflexivity].
Qed.
Print Assumptions C62_refuted.
(** What holds: a failed flush does no such harm, and as long as the slot holds no completed future a read (with a
    buffer of the same length as in earlier polls) or write panics only if the socket does - in release builds never. *)
Theorem C62_flush_partial : forall g t r t', poll_flush g t = (Ready r, t') -> t_slot t' SlFlush = None.
Proof. exact flush_resets. Qed.
Print Assumptions C62_flush_partial.
Theorem C62_read_partial : forall buf g t c t', on_stream t -> t_slot t SlRead <> Some Finished ->
  (forall o b n, t_slot t SlRead = Some (Waiting o b) \/ t_slot t SlRead = Some (Running o b n) -> length b = length buf) ->
  poll_read buf g t = (Crash c, t') -> exists l, c = InSocket l.
Proof. intros buf g t c t' HO. apply read_panics. now apply on_coherent. Qed.
Print Assumptions C62_read_partial.
Theorem C62_write_partial : forall buf g t c t', on_stream t -> t_slot t SlWrite <> Some Finished -> poll_write buf g t = (Crash c, t') -> exists l, c = InSocket l.
Proof. intros buf g t c t' HO. apply write_panics. now apply on_coherent. Qed.
Print Assumptions C62_write_partial.
Theorem C62_release_partial : forall s l rs t c, reachable s -> w_chk (wd s) = false -> acts l (stream_new s) = (rs, t) -> ~ In (Crash (InSocket c)) rs.
Proof.
  intros s l rs t c HR HC H HI. assert (HF : Forall unbroken rs). { eapply quiet_acts; [|exact H]. split; [now apply reachable_ok|exact HC]. }
  rewrite Forall_forall in HF. now elim (HF _ HI c).
Qed.
Print Assumptions C62_release_partial.
(** The restriction to one buffer length is needed. *)
Example C62_example : fst (acts [PollRead c61_buf true; Arrive [c61_data 11 x41]; PollRead [x00] true] (stream_new (accepted false 500 10 []))) =
  [Pending; Ready (Ok SvUnit); Crash Lengths].
Proof. vm_compute. reflexivity. Qed.

(** ** C63 *)
(** Closing through the trait panics always. *)
Theorem C63_refuted : forall g t, on_stream t -> act (PollClose g) t = (Crash NoFuture, t).
Proof. intros g t HO. apply on_coherent in HO. cbn. unfold poll_close, finish_unit, poll_future. now rewrite (co_close _ HO). Qed.
Print Assumptions C63_refuted.
Example C63_example : fst (acts [PollWrite [x41] true; PollClose true] (stream_new (accepted false 500 10 []))) = [Ready (Ok (SvLen 1)); Crash NoFuture].
Proof. vm_compute. reflexivity. Qed.
(** The inherent method instead runs the socket's close once and returns its result. *)
Theorem C63_inherent_partial : forall l t rs t1 g r t2, on_stream t -> t_slot t SlOwnClose = None -> acts l t = (rs, t1) ->
  Forall2 (fun a r => match a with PollOwnClose _ => r = Pending | DropOwnClose => False | _ => True end) l rs ->
  poll_own_close g t1 = (r, t2) -> r <> Pending ->
  exists v bg dn, run_op OClose (t_st t1) = (v, t_st t2) /\ t_begun t2 = t_begun t ++ bg ++ [OClose] /\ ~ In OClose bg /\
    t_done t2 = t_done t ++ dn ++ [(OClose, v)] /\ ~ In OClose (map fst dn) /\ t_lock t2 = None /\
    match v with
    | Ret _ => r = Ready (Ok SvUnit) /\ t_slot t2 SlOwnClose = None
    | Fail (Throw k) => r = Ready (Err k) /\ t_slot t2 SlOwnClose = None
    | Fail (Panic l) => r = Crash (InSocket l)
    | _ => False
    end.
Proof.
  intros l t rs t1 g r t2 HO HN HA HW H HP. apply on_coherent in HO. assert (HW' : waits SlOwnClose is_own_close l rs).
  { eapply Forall2_weaken; [|exact HW]. intros [] y; cbn; try discriminate; try contradiction. intros -> _. split; [now exists grant|reflexivity]. }
  destruct (own_close_call l t rs t1 g r t2 HO HN HA HW' H HP) as (v & bg & dn & H1 & H2 & H3 & H4 & H5 & H6 & H7). exists v, bg, dn.
  repeat (split; [assumption || ((eapply no_mine; [eassumption|reflexivity]) || (eapply no_mine_done; [eassumption|reflexivity]))|]). exact H7.
Qed.
Print Assumptions C63_inherent_partial.

(** ** C64 *)
(** The address queries panic exactly while an operation is suspended. *)
Theorem C64_exactly_partial : forall t os, on_stream t ->
  (t_lock t = None -> (exists r, stream_local_addr os t = Ready r) /\ exists r, stream_peer_addr t = Ready r) /\
  (t_lock t <> None -> stream_local_addr os t = Crash Locked /\ stream_peer_addr t = Crash Locked) /\
  (t_lock t <> None <-> exists sl o b n, t_slot t sl = Some (Running o b n)).
Proof.
  intros t os HO. apply on_coherent in HO. unfold stream_local_addr, stream_peer_addr. split; [|split].
  - intros ->. split; [destruct os; eauto|]. unfold peer_addr, bind, get_sk. cbn. destruct (_ || _); cbn; eauto.
  - destruct (t_lock t); [auto|congruence].
  - split.
    + destruct (t_lock t) as [sl|] eqn:E; [|congruence]. intros _. apply (co_holder _ HO) in E. now exists sl.
    + intros (sl & H). apply (co_holder _ HO) in H. congruence.
Qed.
Print Assumptions C64_exactly_partial.
Theorem C64_refuted : exists s, reachable s /\
  fst (acts [AskPeer; PollRead c61_buf true; AskPeer; AskLocal (Ok local)] (stream_new s)) = [Ready (Ok (SvAddr peer)); Pending; Crash Locked; Crash Locked].
Proof. exists (accepted false 500 10 []). split; [apply accepted_reachable; vm_compute; reflexivity|vm_compute; reflexivity]. Qed.
Print Assumptions C64_refuted.

(** ** C65 *)
(** [taken] is what the accepts consumed of what arrived; the items are the results of one [accept] each, in order.
    Accepts started = items yielded + 1 if one is pending. *)
Theorem C65_incoming : forall s l rs i, iacts l (mkIncoming s [] None 0) = (rs, i) -> (forall c, ~ In (Broke c) rs) ->
  ~ In EndOfStream rs /\
  exists taken os, queued l = taken ++ i_queue i /\ accept_all s taken = (os, i_st i) /\ filter yielded rs = map item_of os /\ length os = length (filter yielded rs) /\
    i_begun i = (length (filter yielded rs) + match i_fut i with None => 0 | Some _ => 1 end)%nat.
Proof.
  intros s l rs i H HB. destruct (incoming_items l _ _ _ H HB) as (tk & os & H1 & H2 & H3 & H4 & H5 & _); [discriminate|]. cbn [i_queue i_st i_begun pending_accepts i_fut] in *.
  rewrite Forall_forall in H4. split; [intros HE; destruct (H4 _ HE) as [|[x Hx]]; discriminate|]. exists tk, os. split; [exact H1|]. split; [exact H2|]. split; [exact H3|].
  assert (HL : length os = length (filter yielded rs)) by (rewrite H3; now rewrite map_length). split; [exact HL|]. rewrite <- HL. unfold pending_accepts in H5. rewrite !PeanoNat.Nat.add_0_r in H5. cbn in H5. exact H5.
Qed.
Print Assumptions C65_incoming.
(** A poll with a datagram waiting yields; and in release builds no poll panics. *)
Theorem C65_progress : forall i e rest, i_queue i = e :: rest -> i_fut i <> Some true -> fst (accept (fst (fst e)) (snd (fst e)) (snd e) (i_st i)) <> Fail Pend ->
  fst (accept (fst (fst e)) (snd (fst e)) (snd e) (i_st i)) <> Fail NoFuel ->
  fst (poll_next i) = item_of (fst (accept (fst (fst e)) (snd (fst e)) (snd e) (i_st i))).
Proof. exact incoming_progress. Qed.
Print Assumptions C65_progress.
Theorem C65_release : forall s l rs i, iacts l (mkIncoming s [] None 0) = (rs, i) -> w_chk (wd s) = false -> forall c, ~ In (Broke c) rs.
Proof. intros s l rs i H HC. eapply incoming_release; eauto. discriminate. Qed.
Print Assumptions C65_release.
Example C65_example : let syn a := (RxDgram (dgram PSyn 100 a 0 []) peer, Ok local, Ok tt) in
  let r := iacts [IPoll; IPoll; IArrive [syn 7; (RxErr KOther, Ok local, Ok tt)]; IPoll; IPoll; IArrive [(RxDgram [x41] peer, Ok local, Ok tt); syn 9]; IPoll; IPoll; IPoll]
    (mkIncoming (mkSt blank (sample_world false 500 [])) [] None 0) in
  fst r = [NotYet; NotYet; Item (Ok peer); Item (Err KOther); Item (Err KOther); Item (Ok peer); NotYet] /\ i_begun (snd r) = 5%nat.
Proof. vm_compute. auto. Qed.
