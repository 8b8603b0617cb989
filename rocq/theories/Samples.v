(** Concrete worlds, datagrams and connections used by examples and refutations. *)
From Verif Require Export Inv.
Local Open Scope Z_scope.

Definition peer : addr := V4 7.
Definition local : addr := V4 8.
(** The clock starts at an arbitrary instant and advances 1 ms per reading; the random draws all give [r];
    all sends succeed. *)
Definition sample_world (chk : bool) (r : Z) (evs : list rx) : world :=
  mkWorld evs 0 (fun n => 1600000000000000 + 1000 * Z.of_nat n) 0 (fun _ => r) 0 (fun _ => SendOk) [] chk.
Definition blank : socket := fresh_socket (0, 1) local.
Definition dgram (t : ptype) (cid sq ak : Z) (pl : list byte) : packet := wire (mkHdr t cid 77 0 1048576 sq ak) [] pl.
Definition rx_pkt (p : packet) : rx := RxDgram p peer.
Definition timeout : rx := RxErr KTimedOut.

(** A server socket that accepted a SYN with connection id 100 and sequence number [a]; its own sequence
    numbers start at [r].  The peer's packets carry id 101. *)
Definition accepted (chk : bool) (r a : Z) (evs : list rx) : st :=
  let s := snd (accept (RxDgram (dgram PSyn 100 a 0 []) peer) (Ok local) (Ok tt) (mkSt blank (sample_world chk r []))) in
  mkSt (sk s) (sw_in evs (wd s)).
(** A client socket whose connect was answered by a State packet with sequence number [sq]; the client uses
    connection ids 300 (receive) and 301 (send). *)
Definition connected (chk : bool) (sq : Z) (evs : list rx) : st :=
  let s := snd (connect (Ok [peer]) (Ok tt) (mkSt blank (sample_world chk 300 [rx_pkt (dgram PState 300 sq 1 [])]))) in
  mkSt (sk s) (sw_in evs (wd s)).

Lemma accepted_reachable chk r a evs : fst (accept (RxDgram (dgram PSyn 100 a 0 []) peer) (Ok local) (Ok tt) (mkSt blank (sample_world chk r []))) = Ret peer ->
  reachable (accepted chk r a evs).
Proof.
  intros H. unfold accepted. cbv zeta. apply rc_input. destruct (accept _ _ _ _) as [o s] eqn:E. cbn [fst snd] in *. subst o.
  eapply rc_accept; [|exact E]. reflexivity.
Qed.
Lemma connected_reachable chk sq evs : fst (connect (Ok [peer]) (Ok tt) (mkSt blank (sample_world chk 300 [rx_pkt (dgram PState 300 sq 1 [])]))) = Ret tt ->
  reachable (connected chk sq evs).
Proof.
  intros H. unfold connected. cbv zeta. apply rc_input. destruct (connect _ _ _) as [o s] eqn:E. cbn [fst snd] in *. subst o.
  eapply rc_connect; [|exact E]. reflexivity.
Qed.
(** Running a list of calls from a reachable state stays in reachable states. *)
Lemma run_ops_reachable ops s : reachable s -> Forall not_panic (fst (run_ops ops s)) -> reachable (snd (run_ops ops s)).
Proof.
  revert s; induction ops as [|o ops IH]; intros s HR HF; [exact HR|]. cbn [run_ops] in *.
  destruct (run_op o s) as [r s'] eqn:E.
  assert (HN : not_panic r -> reachable s') by (intros; eapply rc_op; eauto).
  assert (HG : (let (rs, s'') := run_ops ops s' in (r :: rs, s'')) = (let (rs, s'') := run_ops ops s' in (r :: rs, s''))) by reflexivity.
  assert (HK : Forall not_panic (fst (let (rs, s'') := run_ops ops s' in (r :: rs, s''))) -> reachable (snd (let (rs, s'') := run_ops ops s' in (r :: rs, s'')))).
  { destruct (run_ops ops s') as [rs s''] eqn:E2. cbn [fst snd]. intros H. inversion H; subst. specialize (IH s'). rewrite E2 in IH. apply IH; auto. }
  destruct r as [v|[k|l| |]]; auto. cbn [fst] in HF. inversion HF; subst. now destruct (H1 l).
Qed.
Definition panicked {A} (o : outcome A) : bool := match o with Fail (Panic _) => true | _ => false end.
Lemma ran_reachable ops s : reachable s -> existsb panicked (fst (run_ops ops s)) = false -> reachable (snd (run_ops ops s)).
Proof.
  intros HR HE. apply run_ops_reachable; [exact HR|]. apply Forall_forall. intros o Ho. destruct o as [v|[k|l| |]]; try discriminate. intros l' _.
  assert (HT : existsb panicked (fst (run_ops ops s)) = true) by (apply existsb_exists; eexists; split; [exact Ho|reflexivity]). congruence.
Qed.
Ltac reach := apply ran_reachable; [first [apply accepted_reachable|apply connected_reachable]; vm_compute; reflexivity|vm_compute; reflexivity].
Definition parses (p : packet) : bool := match packet_try_from p with Some (Ok _) => true | _ => false end.
Lemma parses_valid p : parses p = false -> ~ packet_try_from p = Some (Ok p).
Proof. unfold parses. intros H E. rewrite E in H. discriminate. Qed.
Lemma not_panicked (r : outcome value) : panicked r = false -> not_panic r.
Proof. intros H l ->. discriminate. Qed.
