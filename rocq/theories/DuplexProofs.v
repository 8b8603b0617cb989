(** Reading and writing a stream at the same time (C95). *)
From Verif Require Export AdapterProofs LossyProofs.
Require Import ZifyBool ZifyNat ZifyN.
Local Open Scope Z_scope.
Ltac Zify.zify_post_hook ::= Z.div_mod_to_equations.

(** ** While a read holds the socket *)
Definition write_waits (t : stream) : Prop := t_slot t SlWrite = None \/ exists o b, t_slot t SlWrite = Some (Waiting o b).
Lemma write_pends d g t : t_lock t = Some SlRead -> write_waits t ->
  exists t', act (PollWrite d g) t = (Pending, t') /\ t_lock t' = Some SlRead /\ write_waits t' /\ t_st t' = t_st t /\ t_begun t' = t_begun t /\ t_done t' = t_done t /\ t_slot t' SlRead = t_slot t SlRead.
Proof.
  intros HL HW. cbn [act]. unfold poll_write, ensure. destruct HW as [E|(o & b & E)]; rewrite E.
  - unfold poll_future. cbn [t_slot set_slot slot_eqb t_lock]. rewrite HL. eexists. split; [reflexivity|]. cbn. unfold write_waits. cbn. eauto 10.
  - unfold poll_future. rewrite E, HL. exists t. unfold write_waits. eauto 10.
Qed.
Lemma writes_pend l : forall t rs t', Forall (fun a => match a with PollWrite _ _ | Arrive _ => True | _ => False end) l -> t_lock t = Some SlRead -> write_waits t -> acts l t = (rs, t') ->
  Forall2 (fun a r => match a with PollWrite _ _ => r = Pending | _ => True end) l rs /\ t_lock t' = Some SlRead /\ write_waits t' /\ t_begun t' = t_begun t /\ t_done t' = t_done t /\
  sk (t_st t') = sk (t_st t) /\ w_sent (wd (t_st t')) = w_sent (wd (t_st t)) /\ t_slot t' SlRead = t_slot t SlRead.
Proof.
  induction l as [|a l IH]; intros t rs t' HF HL HW H; cbn [acts] in H.
  - injection H as <- <-. auto 10.
  - inversion HF as [|? ? Ha HF']; subst. destruct (act a t) as [r t1] eqn:E1. destruct (acts l t1) as [rs' t2] eqn:E2. injection H as <- <-. destruct a; try contradiction.
    + cbn in E1. injection E1 as <- <-. apply IH in E2; [|exact HF'|exact HL|exact HW]. destruct E2 as (H1 & H2). split; [constructor; auto|]. exact H2.
    + destruct (write_pends buf grant t HL HW) as (t1' & E & L1 & W1 & S1 & B1 & D1 & R1). rewrite E in E1. injection E1 as <- <-.
      destruct (IH _ _ _ HF' L1 W1 E2) as (H1 & H2 & H3 & H4 & H5 & H6 & H7 & H8). split; [constructor; auto|]. rewrite S1 in *. repeat split; auto; congruence.
Qed.

(** ** A reader that is not answered takes the connection down *)
Lemma read_pends n s : idle (sk s) -> w_in (wd s) = [] -> exists s', recv_from n s = (Fail Pend, s').
Proof.
  intros HD HI. rewrite recv_from_idle by exact HD. destruct HD as (ES & _ & _ & _ & _ & HM). rewrite HI. cbn [length loop]. unfold bind at 1, rbody, bind at 1, get_sk at 1. rewrite ES. cbn [sstate_eqb].
  unfold bind at 1, recv, bind at 1, event_fuel. change (recv_fuel (S ?x) n) with (recv_body (recv_fuel x) n). unfold recv_body, bind at 1, wait_datagram, bind at 1, event_fuel. cbn [loop].
  unfold bind at 1, bind at 1, get_sk at 1. replace (s_max_retries (sk s) <=? 0) with false by lia. unfold bind at 1, udp_recv. rewrite HI. eauto.
Qed.
Lemma read_gives_up n ks s : idle (sk s) -> w_in (wd s) = map RxErr ks -> all_timeouts ks -> all_sent s -> timer_ok s (length ks) -> Z.of_nat (length ks) = s_max_retries (sk s) ->
  exists s', recv_from n s = (Fail (Throw KTimedOut), s') /\ s_state (sk s') = Closed.
Proof.
  intros HD HI HK HX HT HM. destruct (wait_gives_up ks [] s HK) as (s' & E & H1 & _); auto; [now rewrite app_nil_r|]. rewrite recv_from_idle by exact HD. cbn [loop].
  unfold bind at 1, rbody, bind at 1, get_sk at 1. destruct HD as (ES & _). rewrite ES. cbn [sstate_eqb]. unfold bind at 1, recv, bind at 1, event_fuel.
  change (recv_fuel (S ?x) n) with (recv_body (recv_fuel x) n). unfold recv_body, bind at 1. rewrite E. eauto.
Qed.
Lemma starved buf d g g' ks s : idle (sk s) -> w_in (wd s) = [] -> all_timeouts ks -> all_sent s -> timer_ok s (length ks) -> Z.of_nat (length ks) = s_max_retries (sk s) ->
  fst (acts [PollRead buf true; PollWrite d g; Arrive (map RxErr ks); PollWrite d g'; PollRead buf true; PollWrite d true] (stream_new s)) =
  [Pending; Pending; Ready (Ok SvUnit); Pending; Ready (Err KTimedOut); Ready (Err KNotConnected)].
Proof.
  intros HD HI HK HX HT HM. destruct (read_pends (length buf) s HD HI) as (s0 & E0).
  assert (EI : w_in (wd (Stream.arrive (map RxErr ks) s)) = map RxErr ks) by (unfold Stream.arrive; cbn; rewrite HI; reflexivity).
  destruct (read_gives_up (length buf) ks (Stream.arrive (map RxErr ks) s)) as (s1 & E1 & EC); auto.
  cbn [acts act]. unfold poll_read at 1. unfold ensure, stream_new. cbn [t_slot]. unfold poll_future, set_slot. cbn [t_slot slot_eqb t_lock t_st t_begun t_done]. unfold advance. cbn [t_st run_op].
  unfold bind at 1. rewrite E0. unfold poll_write at 1. unfold ensure, poll_future, set_slot. cbn [t_slot slot_eqb t_lock t_st t_begun t_done].
  unfold poll_write at 1. unfold ensure, poll_future, set_slot. cbn [t_slot slot_eqb t_lock t_st t_begun t_done].
  unfold poll_read at 1. unfold ensure, poll_future, advance, set_slot. cbn [t_slot slot_eqb t_lock t_st t_begun t_done run_op]. unfold bind at 1. rewrite E1.
  unfold poll_write at 1. unfold ensure, poll_future, advance, set_slot. cbn [t_slot slot_eqb t_lock t_st t_begun t_done run_op]. unfold bind at 1, send_to, bind at 1, get_sk at 1. rewrite EC. reflexivity.
Qed.

(** ** When the read is over *)
Lemma read_releases buf g t r t' : poll_read buf g t = (Ready r, t') -> t_lock t' = None.
Proof.
  unfold poll_read. set (t0 := ensure _ _ _ t). assert (HA : forall o b u x u', advance SlRead o b u = (Ready x, u') -> t_lock u' = None).
  { intros o b u x u'. unfold advance. destruct (run_op o (t_st u)) as [[v|[k|l| |]] s]; intros H; try discriminate; injection H as _ <-; reflexivity. }
  unfold poll_future. destruct (t_slot t0 SlRead) as [[o b|o b n|]|]; [|..|discriminate|discriminate].
  - destruct (t_lock t0); [discriminate|]. destruct g; [|discriminate]. destruct (advance _ _ _ _) as [[[[v vec]|k]| |c] u] eqn:E; try discriminate.
    + apply HA in E. destruct v; try discriminate. destruct (Nat.eqb _ _); [|discriminate]. intros H. injection H as _ <-. exact E.
    + apply HA in E. intros H. injection H as _ <-. exact E.
  - destruct (advance _ _ _ _) as [[[[v vec]|k]| |c] u] eqn:E; try discriminate.
    + apply HA in E. destruct v; try discriminate. destruct (Nat.eqb _ _); [|discriminate]. intros H. injection H as _ <-. exact E.
    + apply HA in E. intros H. injection H as _ <-. exact E.
Qed.
Lemma write_runs d t : t_lock t = None -> t_slot t SlWrite = None \/ t_slot t SlWrite = Some (Waiting (OSendTo d) []) ->
  fst (poll_write d true t) = match fst (send_to d (t_st t)) with Ret n => Ready (Ok (SvLen n)) | Fail (Throw k) => Ready (Err k) | Fail (Panic l) => Crash (InSocket l) | Fail _ => Pending end.
Proof.
  intros HL HW. unfold poll_write, ensure.
  destruct HW as [E|E]; rewrite E; unfold poll_future, set_slot; cbn [t_slot slot_eqb t_lock]; rewrite ?E, HL; unfold advance; cbn [run_op t_st]; unfold bind;
    destruct (send_to d (t_st t)) as [[v|[k|l| |]] s]; reflexivity.
Qed.
