(** Proofs about the stream adapter and the stream of incoming connections (Stream.v). *)
From Verif Require Export Stream TermProofs NoPanicProofs Samples.
Require Import ZifyBool ZifyNat ZifyN.
Local Open Scope Z_scope.

(** ** A read returns at most what was asked for *)
Definition gives {A} (P : A -> Prop) (m : M A) : Prop := forall s a s', m s = (Ret a, s') -> P a.
Lemma gives_bind {A B} (P : B -> Prop) (m : M A) (f : A -> M B) : (forall a, gives P (f a)) -> gives P (bind m f).
Proof. intros H s b s' E. unfold bind in E. destruct (m s) as [[a|e] s1]; [eapply H; eauto|discriminate]. Qed.
Lemma gives_bind2 {A B} (R : A -> Prop) (P : B -> Prop) (m : M A) (f : A -> M B) : gives R m -> (forall a, R a -> gives P (f a)) -> gives P (bind m f).
Proof. intros HR H s b s' E. unfold bind in E. destruct (m s) as [[a|e] s1] eqn:E1; [eapply H; eauto|discriminate]. Qed.
Lemma gives_ret {A} (P : A -> Prop) a : P a -> gives P (ret a). Proof. now intros H s b s' [= <- <-]. Qed.
Lemma gives_throw {A} (P : A -> Prop) k : gives P (throw k). Proof. now intros s b s' [=]. Qed.
Lemma gives_loop {S A} (P : A -> Prop) (body : S -> M (S + A)) : (forall x, gives (fun r => match r with inl _ => True | inr a => P a end) (body x)) ->
  forall f x, gives P (loop f body x).
Proof.
  intros H. induction f as [|f IH]; intros x; cbn [loop]; [now intros s b s' [=]|]. eapply gives_bind2; [apply H|]. intros [y|a] HA; [apply IH|now apply gives_ret].
Qed.
Lemma flush_in_bound n : gives (fun d => (length d <= n)%nat) (flush_incoming_buffer n).
Proof.
  unfold flush_incoming_buffer. apply gives_bind. intros s. destruct (negb _).
  - cbv zeta. apply gives_bind. intros _. apply gives_ret. apply firstn_le_length.
  - destruct (s_incoming_buffer s); [apply gives_ret; cbn; lia|]. apply gives_bind. intros []; [|apply gives_ret; cbn; lia].
    apply gives_bind. intros pl. cbv zeta. apply gives_bind. intros _. apply gives_ret. apply firstn_le_length.
Qed.
Lemma recv_bound n : gives (fun x => (length (fst x) <= n)%nat) (recv n).
Proof.
  unfold recv. apply gives_bind. intros [|f]; cbn [recv_fuel]; [now intros s b s' [=]|]. unfold recv_body. apply gives_bind. intros bs.
  unfold process_datagram. apply gives_bind. intros [p|e].
  - apply gives_bind. intros reply. apply gives_bind. intros _. apply gives_bind. intros ty. apply gives_bind. intros s. apply gives_bind. intros _.
    eapply gives_bind2; [apply flush_in_bound|]. intros d Hd. repeat (apply gives_bind; intros ?). apply gives_ret. exact Hd.
  - apply gives_bind. intros s. apply gives_ret. cbn. lia.
Qed.
Lemma recv_from_bound n : gives (fun x => (length (fst x) <= n)%nat) (recv_from n).
Proof.
  unfold recv_from. eapply gives_bind2; [apply flush_in_bound|]. intros d Hd. apply gives_bind. intros s. destruct (negb _); [now apply gives_ret|].
  destruct (sstate_eqb _ _); [apply gives_throw|]. apply gives_bind. intros fuel. apply gives_loop. intros []. apply gives_bind. intros k.
  destruct (sstate_eqb _ _); [apply gives_ret; cbn; lia|]. eapply gives_bind2; [apply recv_bound|]. intros x Hx. destruct (is_nil _); apply gives_ret; auto.
Qed.

(** ** Slots and the lock *)
Definition op_of (sl : slot) (b : list byte) (o : op) : Prop :=
  match sl with
  | SlRead => o = ORecvFrom (length b)
  | SlWrite => exists d, o = OSendTo d
  | SlFlush => o = OFlush
  | SlClose => False
  | SlOwnClose => o = OClose
  end.
Definition runs (t : stream) (sl : slot) : Prop := exists o b n, t_slot t sl = Some (Running o b n).
Record coherent (t : stream) : Prop := {
  co_holder : forall sl, t_lock t = Some sl <-> runs t sl;
  co_ops : forall sl o b, (t_slot t sl = Some (Waiting o b) \/ exists n, t_slot t sl = Some (Running o b n)) -> op_of sl b o;
  co_close : t_slot t SlClose = None
}.

Lemma slot_eqb_refl x : slot_eqb x x = true. Proof. now destruct x. Qed.
Lemma slot_eqb_spec x y : reflect (x = y) (slot_eqb x y). Proof. destruct x, y; constructor; congruence. Qed.
Lemma set_get sl v t : t_slot (set_slot sl v t) sl = v. Proof. cbn. now rewrite slot_eqb_refl. Qed.
Lemma set_other sl x v t : x <> sl -> t_slot (set_slot sl v t) x = t_slot t x.
Proof. intros H. cbn. destruct (slot_eqb_spec x sl); congruence. Qed.

Lemma coherent_new s : coherent (stream_new s).
Proof.
  constructor; cbn; auto.
  - intros sl. split; [discriminate|]. intros (o & b & n & H). discriminate.
  - intros sl o b [H|[n H]]; discriminate.
Qed.

(** The state after a poll of the future in slot [sl], by cases. *)
Inductive polled (sl : slot) (t : stream) : poll (value * list byte) -> stream -> Prop :=
| po_gone : t_slot t sl = None -> polled sl t (Crash NoFuture) t
| po_again : t_slot t sl = Some Finished -> polled sl t (Crash Resumed) t
| po_queued o b : t_slot t sl = Some (Waiting o b) -> polled sl t Pending t
| po_run o b lk v s bg : ((exists n, t_slot t sl = Some (Running o b n)) /\ bg = t_begun t \/ t_slot t sl = Some (Waiting o b) /\ t_lock t = None /\ bg = t_begun t ++ [o]) ->
    run_op o (t_st t) = (v, s) ->
    lk = match v with Fail Pend | Fail NoFuel => Some sl | _ => None end ->
    polled sl t
      match v with Ret a => Ready (Ok (a, b)) | Fail (Throw k) => Ready (Err k) | Fail (Panic l) => Crash (InSocket l) | Fail _ => Pending end
      match v with
      | Fail Pend | Fail NoFuel => set_slot sl (Some (Running o b (length (w_in (wd (t_st t)))))) (mkStream (t_st t) lk (t_slot t) bg (t_done t))
      | _ => set_slot sl (Some Finished) (mkStream s lk (t_slot t) bg (t_done t ++ [(o, v)]))
      end.
Lemma poll_future_cases sl g t r t' : poll_future sl g t = (r, t') -> polled sl t r t'.
Proof.
  assert (HA : forall o b t0, t_st t0 = t_st t -> t_slot t0 = t_slot t -> t_done t0 = t_done t ->
    ((exists n, t_slot t sl = Some (Running o b n)) /\ t_begun t0 = t_begun t \/ t_slot t sl = Some (Waiting o b) /\ t_lock t = None /\ t_begun t0 = t_begun t ++ [o]) ->
    advance sl o b t0 = (r, t') -> polled sl t r t').
  { intros o b t0 H1 H2 H3 HC H. unfold advance in H. rewrite H1, H2, H3 in H. destruct (run_op o (t_st t)) as [v s] eqn:E.
    pose proof (po_run sl t o b _ v s (t_begun t0) HC E eq_refl) as HP. destruct v as [a|[k|l| |]]; injection H as <- <-; exact HP. }
  unfold poll_future. destruct (t_slot t sl) as [[o b|o b n|]|] eqn:ES; intros H.
  - destruct (t_lock t) eqn:EL.
    + injection H as <- <-. econstructor; eauto.
    + destruct g; [|injection H as <- <-; econstructor; eauto]. apply (HA o b _) in H; auto.
  - apply (HA o b t) in H; eauto 6.
  - injection H as <- <-. now constructor.
  - injection H as <- <-. now constructor.
Qed.

Lemma coherent_polled sl t r t' : coherent t -> polled sl t r t' -> coherent t'.
Proof.
  intros [C1 C2 C3] H. destruct H as [H|H|o b H|o b lk v s bg HC HR HL]; try (constructor; assumption).
  assert (HO : op_of sl b o). { apply C2. destruct HC as [[HC _]|(HC & _ & _)]; [right|left]; assumption. }
  assert (HN : forall x, x <> sl -> ~ runs t x).
  { intros x Hx Hr. apply C1 in Hr. destruct HC as [[HC _]|(HC & HK & _)]; [|congruence]. assert (Hs : runs t sl) by (destruct HC as [n HC]; exists o, b, n; exact HC). apply C1 in Hs. congruence. }
  assert (HSl : sl <> SlClose). { intros ->. exact HO. }
  assert (HF : forall st' bg' dn f, lk = None -> f = Finished -> coherent (set_slot sl (Some f) (mkStream st' lk (t_slot t) bg' dn))).
  { intros st' bg' dn f Hlk ->. constructor.
    - intros x. cbn [set_slot t_lock]. rewrite Hlk. split; [discriminate|]. intros (o' & b' & n' & Hx). destruct (slot_eqb_spec x sl) as [->|Hne].
      + rewrite set_get in Hx. discriminate.
      + rewrite set_other in Hx by assumption. cbn in Hx. elim (HN x Hne). exists o', b', n'. exact Hx.
    - intros x o' b' Hx. destruct (slot_eqb_spec x sl) as [->|Hne].
      + rewrite set_get in Hx. destruct Hx as [Hx|[n Hx]]; discriminate.
      + rewrite set_other in Hx by assumption. apply C2. exact Hx.
    - rewrite set_other by congruence. exact C3. }
  assert (HP : forall st' bg' dn n, lk = Some sl -> coherent (set_slot sl (Some (Running o b n)) (mkStream st' lk (t_slot t) bg' dn))).
  { intros st' bg' dn n Hlk. constructor.
    - intros x. cbn [set_slot t_lock]. rewrite Hlk. split.
      + intros [= <-]. exists o, b, n. apply set_get.
      + intros (o' & b' & n' & Hx). destruct (slot_eqb_spec x sl) as [->|Hne]; [reflexivity|]. rewrite set_other in Hx by assumption. elim (HN x Hne). exists o', b', n'. exact Hx.
    - intros x o' b' Hx. destruct (slot_eqb_spec x sl) as [->|Hne].
      + rewrite set_get in Hx. destruct Hx as [Hx|[n' Hx]]; [discriminate|]. injection Hx as <- <- <-. exact HO.
      + rewrite set_other in Hx by assumption. apply C2. exact Hx.
    - rewrite set_other by congruence. exact C3. }
  destruct v as [a|[k|l| |]]; (apply HF; [exact HL|reflexivity]) || (apply HP; exact HL).
Qed.
Lemma coherent_ensure sl o b t : op_of sl b o -> coherent t -> coherent (ensure sl o b t).
Proof.
  intros HO [C1 C2 C3]. unfold ensure. destruct (t_slot t sl) eqn:E; [now constructor|]. constructor.
  - intros x. cbn [set_slot t_lock]. rewrite C1. unfold runs. split; intros (o' & b' & n' & Hx); exists o', b', n'; destruct (slot_eqb_spec x sl) as [->|Hne];
      rewrite ?set_get, ?set_other in * by assumption; congruence.
  - intros x o' b' Hx. destruct (slot_eqb_spec x sl) as [->|Hne].
    + rewrite set_get in Hx. destruct Hx as [Hx|[n Hx]]; [|discriminate]. injection Hx as <- <-. exact HO.
    + rewrite set_other in Hx by assumption. now apply C2.
  - rewrite set_other; [exact C3|]. intros <-. exact HO.
Qed.
Lemma coherent_clear sl t : (forall o b n, t_slot t sl <> Some (Running o b n)) -> coherent t -> coherent (set_slot sl None t).
Proof.
  intros HR [C1 C2 C3]. constructor.
  - intros x. cbn [set_slot t_lock]. rewrite C1. unfold runs. split; intros (o' & b' & n' & Hx); exists o', b', n'; destruct (slot_eqb_spec x sl) as [->|Hne];
      rewrite ?set_get, ?set_other in * by assumption; congruence.
  - intros x o' b' Hx. destruct (slot_eqb_spec x sl) as [->|Hne].
    + rewrite set_get in Hx. destruct Hx as [Hx|[n Hx]]; discriminate.
    + rewrite set_other in Hx by assumption. now apply C2.
  - destruct (slot_eqb_spec SlClose sl) as [<-|Hne]; [apply set_get|rewrite set_other by congruence; exact C3].
Qed.
(** A future that became ready is completed. *)
Lemma ready_finished sl t r t' : polled sl t (Ready r) t' -> t_slot t' sl = Some Finished /\ t_lock t' = None.
Proof.
  intros H. remember (Ready r) as x eqn:Ex. destruct H as [H|H|o b H|o b lk v s bg HC HR HL]; try discriminate.
  destruct v as [a|[k|l| |]]; try discriminate; (split; [apply set_get|exact HL]).
Qed.
Lemma coherent_ready sl t r t' : coherent t' -> polled sl t (Ready r) t' -> coherent (set_slot sl None t').
Proof. intros HC H. apply coherent_clear; [|exact HC]. apply ready_finished in H as [H _]. intros o b n. congruence. Qed.

Ltac use_poll H HP :=
  match type of H with context [poll_future ?sl ?g ?t] => destruct (poll_future sl g t) as [[[[? ?]|?]| |?] ?] eqn:HP; apply poll_future_cases in HP end.
Lemma coherent_act a t r t' : coherent t -> act a t = (r, t') -> coherent t'.
Proof.
  intros HC H. destruct a; cbn [act] in H.
  - injection H as <- <-. destruct HC as [C1 C2 C3]. constructor; auto.
  - unfold poll_read in H. assert (HE := coherent_ensure SlRead (ORecvFrom (length buf)) buf t eq_refl HC). use_poll H HP; pose proof (coherent_polled _ _ _ _ HE HP).
    + destruct v; [destruct (Nat.eqb _ _)|..]; injection H as <- <-; auto. eapply coherent_ready; eauto.
    + now injection H as <- <-.
    + now injection H as <- <-.
    + now injection H as <- <-.
  - unfold poll_write in H. assert (HE := coherent_ensure SlWrite (OSendTo buf) [] t (ex_intro _ _ eq_refl) HC). use_poll H HP; pose proof (coherent_polled _ _ _ _ HE HP).
    + destruct v; injection H as <- <-; auto. eapply coherent_ready; eauto.
    + now injection H as <- <-.
    + now injection H as <- <-.
    + now injection H as <- <-.
  - unfold poll_flush, finish_unit in H. assert (HE := coherent_ensure SlFlush OFlush [] t eq_refl HC). use_poll H HP; pose proof (coherent_polled _ _ _ _ HE HP).
    + injection H as <- <-. eapply coherent_ready; eauto.
    + injection H as <- <-. eapply coherent_ready; eauto.
    + now injection H as <- <-.
    + now injection H as <- <-.
  - unfold poll_close, finish_unit in H. use_poll H HP; pose proof (coherent_polled _ _ _ _ HC HP).
    + injection H as <- <-. eapply coherent_ready; eauto.
    + injection H as <- <-. eapply coherent_ready; eauto.
    + now injection H as <- <-.
    + now injection H as <- <-.
  - unfold poll_own_close, finish_unit in H. assert (HE := coherent_ensure SlOwnClose OClose [] t eq_refl HC). use_poll H HP; pose proof (coherent_polled _ _ _ _ HE HP).
    + injection H as <- <-. eapply coherent_ready; eauto.
    + injection H as <- <-. eapply coherent_ready; eauto.
    + now injection H as <- <-.
    + now injection H as <- <-.
  - injection H as <- <-. unfold drop_own_close. destruct (t_slot t SlOwnClose) as [[o b|o b n|]|] eqn:E; try (apply coherent_clear; [congruence|exact HC]).
    destruct HC as [C1 C2 C3]. assert (HL : t_lock t = Some SlOwnClose) by (apply C1; exists o, b, n; exact E). constructor.
    + intros x. cbn [set_slot t_lock]. split; [discriminate|]. intros (o' & b' & n' & Hx). destruct (slot_eqb_spec x SlOwnClose) as [->|Hne]; [rewrite set_get in Hx; discriminate|].
      rewrite set_other in Hx by assumption. assert (HX : t_lock t = Some x) by (apply C1; exists o', b', n'; exact Hx). congruence.
    + intros x o' b' Hx. destruct (slot_eqb_spec x SlOwnClose) as [->|Hne]; [rewrite set_get in Hx; destruct Hx as [Hx|[? Hx]]; discriminate|].
      rewrite set_other in Hx by assumption. apply C2. exact Hx.
    + exact C3.
  - unfold poll_set_retries in H. destruct (t_lock t) eqn:E; [now injection H as <- <-|]. destruct grant; injection H as <- <-; [|assumption].
    destruct HC as [C1 C2 C3]. constructor; auto. intros sl. cbn. rewrite <- E. apply C1.
  - now injection H as <- <-.
  - now injection H as <- <-.
Qed.
Lemma coherent_acts l : forall t rs t', coherent t -> acts l t = (rs, t') -> coherent t'.
Proof.
  induction l as [|a l IH]; intros t rs t' HC H; cbn in H; [now injection H as <- <-|]. destruct (act a t) as [r t1] eqn:E1. destruct (acts l t1) as [rs1 t2] eqn:E2.
  injection H as <- <-. eapply IH; [|exact E2]. eapply coherent_act; eauto.
Qed.

(** ** One socket operation per call *)
Definition mine (sl : slot) (o : op) : bool :=
  match sl, o with SlRead, ORecvFrom _ | SlWrite, OSendTo _ | SlFlush, OFlush | SlOwnClose, OClose => true | _, _ => false end.
Definition owner (a : action) : option slot :=
  match a with PollRead _ _ => Some SlRead | PollWrite _ _ => Some SlWrite | PollFlush _ => Some SlFlush | PollClose _ => Some SlClose
  | PollOwnClose _ | DropOwnClose => Some SlOwnClose | _ => None end.
Definition foreign (sl : slot) (o : op) : Prop := mine sl o = false.
(** What an action that does not concern slot [sl] may do, seen from [sl]. *)
Definition aside (sl : slot) (t t' : stream) : Prop :=
  t_slot t' sl = t_slot t sl /\
  (exists bg, t_begun t' = t_begun t ++ bg /\ Forall (foreign sl) bg /\ (t_lock t = Some sl -> bg = [])) /\
  (exists dn, t_done t' = t_done t ++ dn /\ Forall (fun x => foreign sl (fst x)) dn /\ (t_lock t = Some sl -> dn = [])) /\
  (t_lock t = Some sl -> t_lock t' = Some sl /\ exists evs, t_st t' = arrive evs (t_st t)).
Lemma arrive_nil s : arrive [] s = s. Proof. destruct s as [k []]. unfold arrive. cbn. now rewrite app_nil_r. Qed.
Lemma aside_refl sl t : aside sl t t.
Proof.
  split; [reflexivity|]. split; [exists []; rewrite app_nil_r; auto|]. split; [exists []; rewrite app_nil_r; auto|]. intros H. split; [exact H|]. exists []. now rewrite arrive_nil.
Qed.
Lemma op_foreign sl x b o : op_of x b o -> x <> sl -> foreign sl o.
Proof. intros H N. unfold foreign. destruct x; cbn in H; [|destruct H as [d H]| | |]; try contradiction; subst o; destruct sl; reflexivity || (now elim N). Qed.
Lemma aside_polled sl x t r t' : x <> sl -> coherent t -> polled x t r t' -> aside sl t t'.
Proof.
  intros N HC H. destruct H as [H|H|o b H|o b lk v s bg HB HR HL]; try apply aside_refl.
  assert (HO : op_of x b o). { apply (co_ops _ HC). destruct HB as [[HB _]|(HB & _ & _)]; auto. }
  assert (HF : foreign sl o) by (eapply op_foreign; eauto).
  assert (HK : t_lock t <> Some sl).
  { intros E. destruct HB as [[[n HB] _]|(_ & HB & _)]; [|congruence]. assert (t_lock t = Some x) by (apply (co_holder _ HC); exists o, b, n; exact HB). congruence. }
  assert (HBg : exists l, bg = t_begun t ++ l /\ Forall (foreign sl) l /\ (t_lock t = Some sl -> l = [])).
  { destruct HB as [[_ ->]|(_ & _ & ->)]; [exists []; rewrite app_nil_r; auto|exists [o]; split; [reflexivity|]; split; [auto|now intros E; elim HK]]. }
  destruct v as [a|[k|l| |]]; (split; [rewrite set_other by congruence; reflexivity|]; split; [exact HBg|]; split; [|intros E; now elim HK]).
  1-3: eexists; split; [reflexivity|]; split; [constructor; auto|intros E; now elim HK].
  all: exists []; rewrite app_nil_r; auto.
Qed.
Lemma aside_set sl x v t : x <> sl -> aside sl t (set_slot x v t).
Proof.
  intros N. split; [rewrite set_other by congruence; reflexivity|]. split; [exists []; rewrite app_nil_r; auto|]. split; [exists []; rewrite app_nil_r; auto|]. intros H. split; [exact H|]. exists []. now rewrite arrive_nil.
Qed.
Lemma aside_trans sl t1 t2 t3 : aside sl t1 t2 -> aside sl t2 t3 -> aside sl t1 t3.
Proof.
  intros (A1 & (b1 & B1 & B2 & B3) & (d1 & D1 & D2 & D3) & L1) (A2 & (b2 & B4 & B5 & B6) & (d2 & D4 & D5 & D6) & L2).
  split; [congruence|]. split; [|split].
  - exists (b1 ++ b2). split; [rewrite B4, B1; now rewrite app_assoc|]. split; [apply Forall_app; auto|]. intros E. rewrite B3 by assumption. apply B6, L1, E.
  - exists (d1 ++ d2). split; [rewrite D4, D1; now rewrite app_assoc|]. split; [apply Forall_app; auto|]. intros E. rewrite D3 by assumption. apply D6, L1, E.
  - intros E. destruct (L1 E) as [E1 [v1 V1]]. destruct (L2 E1) as [E2 [v2 V2]]. split; [exact E2|]. exists (v1 ++ v2). rewrite V2, V1. unfold arrive. cbn. now rewrite <- app_assoc.
Qed.
Lemma aside_ensure sl x o b t : x <> sl -> aside sl t (ensure x o b t).
Proof. intros N. unfold ensure. destruct (t_slot t x); [apply aside_refl|now apply aside_set]. Qed.
Lemma aside_act sl a t r t' : coherent t -> sl <> SlClose -> owner a <> Some sl -> act a t = (r, t') -> aside sl t t'.
Proof.
  intros HC NC N H. destruct a; cbn [act owner] in *.
  - injection H as <- <-. split; [reflexivity|]. split; [exists []; rewrite app_nil_r; auto|]. split; [exists []; rewrite app_nil_r; auto|]. intros E. split; [exact E|]. now exists evs.
  - unfold poll_read in H. assert (HE := coherent_ensure SlRead (ORecvFrom (length buf)) buf t eq_refl HC). assert (NS : SlRead <> sl) by congruence.
    pose proof (aside_ensure sl SlRead (ORecvFrom (length buf)) buf t NS). use_poll H HP; pose proof (aside_polled sl _ _ _ _ NS HE HP).
    + destruct v; [destruct (Nat.eqb _ _)|..]; injection H as <- <-; repeat (eapply aside_trans; [eassumption|]); (apply aside_refl || now apply aside_set).
    + injection H as <- <-. eapply aside_trans; eassumption.
    + injection H as <- <-. eapply aside_trans; eassumption.
    + injection H as <- <-. eapply aside_trans; eassumption.
  - unfold poll_write in H. assert (HE := coherent_ensure SlWrite (OSendTo buf) [] t (ex_intro _ _ eq_refl) HC). assert (NS : SlWrite <> sl) by congruence.
    pose proof (aside_ensure sl SlWrite (OSendTo buf) [] t NS). use_poll H HP; pose proof (aside_polled sl _ _ _ _ NS HE HP).
    + destruct v; injection H as <- <-; repeat (eapply aside_trans; [eassumption|]); (apply aside_refl || now apply aside_set).
    + injection H as <- <-. eapply aside_trans; eassumption.
    + injection H as <- <-. eapply aside_trans; eassumption.
    + injection H as <- <-. eapply aside_trans; eassumption.
  - unfold poll_flush, finish_unit in H. assert (HE := coherent_ensure SlFlush OFlush [] t eq_refl HC). assert (NS : SlFlush <> sl) by congruence.
    pose proof (aside_ensure sl SlFlush OFlush [] t NS). use_poll H HP; pose proof (aside_polled sl _ _ _ _ NS HE HP); injection H as <- <-;
      repeat (eapply aside_trans; [eassumption|]); (apply aside_refl || now apply aside_set).
  - unfold poll_close, finish_unit in H. assert (NS : SlClose <> sl) by congruence. use_poll H HP; pose proof (aside_polled sl _ _ _ _ NS HC HP); injection H as <- <-;
      repeat (eapply aside_trans; [eassumption|]); (apply aside_refl || now apply aside_set).
  - unfold poll_own_close, finish_unit in H. assert (HE := coherent_ensure SlOwnClose OClose [] t eq_refl HC). assert (NS : SlOwnClose <> sl) by congruence.
    pose proof (aside_ensure sl SlOwnClose OClose [] t NS). use_poll H HP; pose proof (aside_polled sl _ _ _ _ NS HE HP); injection H as <- <-;
      repeat (eapply aside_trans; [eassumption|]); (apply aside_refl || now apply aside_set).
  - injection H as <- <-. assert (NS : SlOwnClose <> sl) by congruence. unfold drop_own_close. destruct (t_slot t SlOwnClose) as [[o b|o b n|]|] eqn:E; try now apply aside_set.
    assert (HO : op_of SlOwnClose b o) by (apply (co_ops _ HC); eauto).
    assert (HL : t_lock t = Some SlOwnClose) by (apply (co_holder _ HC); exists o, b, n; exact E).
    split; [rewrite set_other by congruence; reflexivity|]. split; [exists []; cbn; rewrite app_nil_r; auto|]. split.
    + eexists. split; [reflexivity|]. split; [constructor; [|constructor]; eapply op_foreign; eauto|]. congruence.
    + congruence.
  - unfold poll_set_retries in H. destruct (t_lock t) eqn:E; [injection H as <- <-; apply aside_refl|]. destruct grant; injection H as <- <-; [|apply aside_refl].
    assert (HF : foreign sl (OSetRetries n)) by now destruct sl.
    split; [reflexivity|]. split; [eexists; split; [reflexivity|]; split; [auto|congruence]|]. split; [eexists; split; [reflexivity|]; split; [auto|congruence]|]. congruence.
  - injection H as <- <-. apply aside_refl.
  - injection H as <- <-. apply aside_refl.
Qed.

(** From the first poll to the last: the call made at slot [sl] with operation [o] has started at most once. *)
Definition underway (sl : slot) (o : op) (b : list byte) (t0 t : stream) : Prop :=
  exists bg dn, Forall (foreign sl) bg /\ Forall (fun x => foreign sl (fst x)) dn /\ t_done t = t_done t0 ++ dn /\
    ((t_slot t sl = None \/ t_slot t sl = Some (Waiting o b)) /\ t_begun t = t_begun t0 ++ bg \/
     (exists n, t_slot t sl = Some (Running o b n)) /\ t_begun t = t_begun t0 ++ bg ++ [o]).
Lemma underway_aside sl o b t0 t t' : coherent t -> underway sl o b t0 t -> aside sl t t' -> underway sl o b t0 t'.
Proof.
  intros HC (bg & dn & F1 & F2 & D & HB) (A & (b1 & B1 & B2 & B3) & (d1 & D1 & D2 & D3) & _). exists (bg ++ b1), (dn ++ d1).
  split; [apply Forall_app; auto|]. split; [apply Forall_app; auto|]. split; [rewrite D1, D; now rewrite app_assoc|]. rewrite A. destruct HB as [[HS HB]|[[n HS] HB]].
  - left. split; [exact HS|]. rewrite B1, HB. now rewrite app_assoc.
  - right. split; [now exists n|]. assert (HL : t_lock t = Some sl) by (apply (co_holder _ HC); exists o, b, n; exact HS). rewrite B1, HB, (B3 HL). now rewrite !app_nil_r.
Qed.
Lemma underway_ensure sl o b t0 t : underway sl o b t0 t -> underway sl o b t0 (ensure sl o b t) /\ t_slot (ensure sl o b t) sl <> None.
Proof.
  intros HU. unfold ensure. destruct (t_slot t sl) eqn:E; [split; [exact HU|congruence]|]. split; [|rewrite set_get; discriminate].
  destruct HU as (bg & dn & F1 & F2 & D & [[_ HB]|[[n HS] _]]); [|congruence]. exists bg, dn. do 3 (split; [assumption|]). left. split; [right; apply set_get|exact HB].
Qed.
Lemma underway_pending sl o b t0 t t' : underway sl o b t0 t -> polled sl t Pending t' -> underway sl o b t0 t'.
Proof.
  intros HU H. remember Pending as r eqn:Er. destruct H as [H|H|o' b' H|o' b' lk v s bg HB HR HL]; try discriminate; [exact HU|].
  destruct HU as (bg0 & dn & F1 & F2 & D & HU).
  assert (HX : o' = o /\ b' = b /\ bg = t_begun t0 ++ bg0 ++ [o]).
  { destruct HU as [[[HS|HS] HU]|[[n HS] HU]]; (destruct HB as [[[n' HB] Hbg]|(HB & _ & Hbg)]; [|]); rewrite HS in HB; try discriminate.
    - injection HB as <- <-. rewrite Hbg, HU. now rewrite app_assoc.
    - injection HB as <- <- <-. rewrite Hbg, HU. auto. }
  destruct HX as (-> & -> & ->).
  destruct v as [a|[k|l| |]]; try discriminate; exists bg0, dn; (do 3 (split; [assumption|])); right; (split; [eexists; apply set_get|reflexivity]).
Qed.
(** The poll that ends the call. *)
Lemma underway_ends sl o b t0 t r t' : underway sl o b t0 t -> t_slot t sl <> None -> polled sl t r t' -> r <> Pending ->
  exists v bg dn, run_op o (t_st t) = (v, t_st t') /\ Forall (foreign sl) bg /\ Forall (fun x => foreign sl (fst x)) dn /\
    t_begun t' = t_begun t0 ++ bg ++ [o] /\ t_done t' = t_done t0 ++ dn ++ [(o, v)] /\ t_lock t' = None /\ t_slot t' sl = Some Finished /\
    match v with Ret a => r = Ready (Ok (a, b)) | Fail (Throw k) => r = Ready (Err k) | Fail (Panic l) => r = Crash (InSocket l) | Fail _ => False end.
Proof.
  intros (bg0 & dn & F1 & F2 & D & HU) HN H HP. destruct H as [H|H|o' b' H|o' b' lk v s bg HB HR HL].
  - congruence.
  - destruct HU as [[[HS|HS] _]|[[n HS] _]]; congruence.
  - now elim HP.
  - assert (HX : o' = o /\ b' = b /\ bg = t_begun t0 ++ bg0 ++ [o]).
    { destruct HU as [[[HS|HS] HU]|[[n HS] HU]]; (destruct HB as [[[n' HB] Hbg]|(HB & _ & Hbg)]; [|]); rewrite HS in HB; try discriminate.
      - injection HB as <- <-. rewrite Hbg, HU. now rewrite app_assoc.
      - injection HB as <- <- <-. rewrite Hbg, HU. auto. }
    destruct HX as (-> & -> & ->). exists v, bg0, dn.
    destruct v as [a|[k|l| |]]; try (now elim HP); (split; [exact HR|]); (do 2 (split; [assumption|])); (split; [reflexivity|]);
      (split; [cbn; rewrite D; now rewrite app_assoc|]); (split; [exact HL|]); (split; [apply set_get|reflexivity]).
Qed.

Definition waits (sl : slot) (same : action -> Prop) (l : list action) (rs : list (poll sval)) : Prop :=
  Forall2 (fun a r => owner a = Some sl -> same a /\ r = Pending) l rs.
Lemma underway_read buf t0 t g r t' : coherent t -> underway SlRead (ORecvFrom (length buf)) buf t0 t -> poll_read buf g t = (r, t') -> r = Pending -> underway SlRead (ORecvFrom (length buf)) buf t0 t'.
Proof.
  intros HC HU H ->. apply underway_ensure in HU as [HU HN]. unfold poll_read in H. use_poll H HP.
  - destruct v; [destruct (Nat.eqb _ _)|..]; discriminate.
  - discriminate.
  - injection H as <-. eapply underway_pending; eauto.
  - discriminate.
Qed.
Lemma underway_write buf t0 t g r t' : coherent t -> underway SlWrite (OSendTo buf) [] t0 t -> poll_write buf g t = (r, t') -> r = Pending -> underway SlWrite (OSendTo buf) [] t0 t'.
Proof.
  intros HC HU H ->. apply underway_ensure in HU as [HU HN]. unfold poll_write in H. use_poll H HP.
  - destruct v; discriminate.
  - discriminate.
  - injection H as <-. eapply underway_pending; eauto.
  - discriminate.
Qed.
Lemma underway_flush t0 t g r t' : coherent t -> underway SlFlush OFlush [] t0 t -> poll_flush g t = (r, t') -> r = Pending -> underway SlFlush OFlush [] t0 t'.
Proof.
  intros HC HU H ->. apply underway_ensure in HU as [HU HN]. unfold poll_flush, finish_unit in H. use_poll H HP; try discriminate.
  injection H as <-. eapply underway_pending; eauto.
Qed.
Lemma underway_start sl o b t : t_slot t sl = None -> underway sl o b t t.
Proof. intros H. exists [], []. rewrite !app_nil_r. auto 8. Qed.
Lemma underway_acts sl o b (same : action -> Prop) t0 : sl <> SlClose ->
  (forall a t r t', owner a = Some sl -> same a -> coherent t -> underway sl o b t0 t -> act a t = (r, t') -> r = Pending -> underway sl o b t0 t') ->
  forall l t rs t', coherent t -> underway sl o b t0 t -> acts l t = (rs, t') -> waits sl same l rs -> underway sl o b t0 t'.
Proof.
  intros NC HS. induction l as [|a l IH]; intros t rs t' HC HU H HW; cbn in H; [now injection H as <- <-|].
  destruct (act a t) as [r t1] eqn:E1. destruct (acts l t1) as [rs1 t2] eqn:E2. injection H as <- <-. inversion HW as [|? ? ? ? HA HW1]; subst.
  apply (IH t1 rs1); auto; [eapply coherent_act; eauto|].
  assert (HD : owner a = Some sl \/ owner a <> Some sl) by (destruct (owner a) as [[]|], sl; (left; reflexivity) || (right; discriminate)).
  destruct HD as [HD|HD].
  - destruct (HA HD). eapply HS; eauto.
  - eapply underway_aside; eauto. eapply aside_act; eauto.
Qed.

Definition is_poll_read (buf : list byte) (a : action) : Prop := exists g, a = PollRead buf g.
Definition is_poll_write (buf : list byte) (a : action) : Prop := exists g, a = PollWrite buf g.
Definition is_poll_flush (a : action) : Prop := exists g, a = PollFlush g.

Lemma read_call buf l t rs t1 g r t2 : coherent t -> t_slot t SlRead = None -> acts l t = (rs, t1) -> waits SlRead (is_poll_read buf) l rs ->
  poll_read buf g t1 = (r, t2) -> r <> Pending ->
  exists v bg dn, run_op (ORecvFrom (length buf)) (t_st t1) = (v, t_st t2) /\ Forall (foreign SlRead) bg /\ Forall (fun x => foreign SlRead (fst x)) dn /\
    t_begun t2 = t_begun t ++ bg ++ [ORecvFrom (length buf)] /\ t_done t2 = t_done t ++ dn ++ [(ORecvFrom (length buf), v)] /\ t_lock t2 = None /\
    match v with
    | Ret (VData d _) => r = Ready (Ok (SvRead (Z.of_nat (length d)) (d ++ skipn (length d) buf))) /\ t_slot t2 SlRead = None
    | Fail (Throw k) => r = Ready (Err k)
    | Fail (Panic l) => r = Crash (InSocket l)
    | _ => False
    end.
Proof.
  intros HC HN HA HW H HP.
  assert (HU : underway SlRead (ORecvFrom (length buf)) buf t t1).
  { eapply (underway_acts SlRead _ _ (is_poll_read buf) t); eauto; [discriminate| |now apply underway_start].
    intros a x r' x' _ [g' ->] HCx HUx Ex Er. eapply underway_read; eauto. }
  apply underway_ensure in HU as [HU HE]. assert (HST : t_st (ensure SlRead (ORecvFrom (length buf)) buf t1) = t_st t1) by (unfold ensure; now destruct (t_slot t1 SlRead)).
  unfold poll_read in H. destruct (poll_future SlRead g _) as [q t3] eqn:E. apply poll_future_cases in E.
  assert (HQ : q <> Pending). { intros ->. injection H as <- <-. now elim HP. }
  destruct (underway_ends _ _ _ _ _ _ _ HU HE E HQ) as (v & bg & dn & HR & F1 & F2 & B & D & L & S & HV). rewrite HST in HR. exists v, bg, dn.
  destruct v as [a|[k|p| |]]; try contradiction; subst q.
  - cbn [run_op] in HR. unfold bind in HR. destruct (recv_from _ _) as [[[d src]|e] s1] eqn:ER; [|discriminate]. injection HR as <- HR. cbn [fst snd] in H.
    pose proof (recv_from_bound _ _ _ _ ER) as HB. cbn [fst] in HB.
    assert (HL : Nat.eqb (length buf) (length (d ++ skipn (length d) buf)) = true) by (rewrite app_length, skipn_length; lia).
    rewrite HL in H. injection H as <- <-. cbn [run_op set_slot t_st t_begun t_done t_lock]. unfold bind. rewrite ER. cbn [fst snd].
    split; [now rewrite <- HR|]. do 5 (split; [assumption|]). split; [reflexivity|]. apply (set_get SlRead None t3).
  - injection H as <- <-. repeat (split; [assumption|]). reflexivity.
  - injection H as <- <-. repeat (split; [assumption|]). reflexivity.
Qed.
Lemma write_call buf l t rs t1 g r t2 : coherent t -> t_slot t SlWrite = None -> acts l t = (rs, t1) -> waits SlWrite (is_poll_write buf) l rs ->
  poll_write buf g t1 = (r, t2) -> r <> Pending ->
  exists v bg dn, run_op (OSendTo buf) (t_st t1) = (v, t_st t2) /\ Forall (foreign SlWrite) bg /\ Forall (fun x => foreign SlWrite (fst x)) dn /\
    t_begun t2 = t_begun t ++ bg ++ [OSendTo buf] /\ t_done t2 = t_done t ++ dn ++ [(OSendTo buf, v)] /\ t_lock t2 = None /\
    match v with
    | Ret (VLen n) => r = Ready (Ok (SvLen n)) /\ t_slot t2 SlWrite = None
    | Fail (Throw k) => r = Ready (Err k)
    | Fail (Panic l) => r = Crash (InSocket l)
    | _ => False
    end.
Proof.
  intros HC HN HA HW H HP.
  assert (HU : underway SlWrite (OSendTo buf) [] t t1).
  { eapply (underway_acts SlWrite _ _ (is_poll_write buf) t); eauto; [discriminate| |now apply underway_start].
    intros a x r' x' _ [g' ->] HCx HUx Ex Er. eapply underway_write; eauto. }
  apply underway_ensure in HU as [HU HE]. assert (HST : t_st (ensure SlWrite (OSendTo buf) [] t1) = t_st t1) by (unfold ensure; now destruct (t_slot t1 SlWrite)).
  unfold poll_write in H. destruct (poll_future SlWrite g _) as [q t3] eqn:E. apply poll_future_cases in E.
  assert (HQ : q <> Pending). { intros ->. injection H as <- <-. now elim HP. }
  destruct (underway_ends _ _ _ _ _ _ _ HU HE E HQ) as (v & bg & dn & HR & F1 & F2 & B & D & L & S & HV). rewrite HST in HR. exists v, bg, dn.
  destruct v as [a|[k|p| |]]; try contradiction; subst q.
  - cbn [run_op] in HR. unfold bind in HR. destruct (send_to _ _) as [[n|e] s1] eqn:ER; [|discriminate]. injection HR as <- HR.
    injection H as <- <-. cbn [run_op set_slot t_st t_begun t_done t_lock]. unfold bind. rewrite ER.
    split; [now rewrite <- HR|]. do 5 (split; [assumption|]). split; [reflexivity|]. apply (set_get SlWrite None t3).
  - injection H as <- <-. repeat (split; [assumption|]). reflexivity.
  - injection H as <- <-. repeat (split; [assumption|]). reflexivity.
Qed.
Lemma flush_call l t rs t1 g r t2 : coherent t -> t_slot t SlFlush = None -> acts l t = (rs, t1) -> waits SlFlush is_poll_flush l rs ->
  poll_flush g t1 = (r, t2) -> r <> Pending ->
  exists v bg dn, run_op OFlush (t_st t1) = (v, t_st t2) /\ Forall (foreign SlFlush) bg /\ Forall (fun x => foreign SlFlush (fst x)) dn /\
    t_begun t2 = t_begun t ++ bg ++ [OFlush] /\ t_done t2 = t_done t ++ dn ++ [(OFlush, v)] /\ t_lock t2 = None /\
    match v with
    | Ret _ => r = Ready (Ok SvUnit) /\ t_slot t2 SlFlush = None
    | Fail (Throw k) => r = Ready (Err k) /\ t_slot t2 SlFlush = None
    | Fail (Panic l) => r = Crash (InSocket l)
    | _ => False
    end.
Proof.
  intros HC HN HA HW H HP.
  assert (HU : underway SlFlush OFlush [] t t1).
  { eapply (underway_acts SlFlush _ _ is_poll_flush t); eauto; [discriminate| |now apply underway_start].
    intros a x r' x' _ [g' ->] HCx HUx Ex Er. eapply underway_flush; eauto. }
  apply underway_ensure in HU as [HU HE]. assert (HST : t_st (ensure SlFlush OFlush [] t1) = t_st t1) by (unfold ensure; now destruct (t_slot t1 SlFlush)).
  unfold poll_flush, finish_unit in H. destruct (poll_future SlFlush g _) as [q t3] eqn:E. apply poll_future_cases in E.
  assert (HQ : q <> Pending). { intros ->. injection H as <- <-. now elim HP. }
  destruct (underway_ends _ _ _ _ _ _ _ HU HE E HQ) as (v & bg & dn & HR & F1 & F2 & B & D & L & S & HV). rewrite HST in HR. exists v, bg, dn.
  destruct v as [a|[k|p| |]]; try contradiction; subst q; injection H as <- <-; repeat (split; [assumption|]); auto; (split; [reflexivity|]); apply (set_get SlFlush None t3).
Qed.

(** ** Any poll schedule amounts to a sequence of calls on the socket *)
Definition ended_call (x : op * outcome value) : Prop := match snd x with Fail (Panic _) | Fail Pend | Fail NoFuel => False | _ => True end.
Definition unbroken {A} (r : poll A) : Prop := forall l, r <> Crash (InSocket l).
Fixpoint arrived (l : list action) : list rx := match l with [] => [] | Arrive evs :: rest => evs ++ arrived rest | _ :: rest => arrived rest end.
Lemma arrive_arrive a b s : arrive b (arrive a s) = arrive (a ++ b) s.
Proof. unfold arrive. cbn. now rewrite <- app_assoc. Qed.
Lemma run_ops_more more : forall dn s s', run_ops (map fst dn) s = (map snd dn, s') -> Forall ended_call dn -> run_ops (map fst dn) (arrive more s) = (map snd dn, arrive more s').
Proof.
  induction dn as [|[o v] dn IH]; intros s s' H HF; cbn in *; [now injection H as <-|]. inversion HF as [|? ? HE HF1]; subst. unfold ended_call in HE. cbn in HE.
  destruct (run_op o s) as [v1 s1] eqn:E.
  assert (HV : v1 = v /\ run_ops (map fst dn) s1 = (map snd dn, s')).
  { destruct v1 as [a|[k|l| |]]; try (destruct (run_ops (map fst dn) s1) as [rs s2]; injection H as <- <- <-; auto; contradiction). }
  destruct HV as [-> HV]. change (arrive more s) with (ext more s). rewrite (same_run_op more o s v s1 E).
  2:{ destruct v as [a|[]]; auto; contradiction. }
  destruct v as [a|[k|l| |]]; try contradiction; change (ext more s1) with (arrive more s1); rewrite (IH _ _ HV HF1); reflexivity.
Qed.
Lemma run_ops_snoc o v : forall dn s s1 s2, run_ops (map fst dn) s = (map snd dn, s1) -> Forall ended_call dn -> run_op o s1 = (v, s2) -> ended_call (o, v) ->
  run_ops (map fst (dn ++ [(o, v)])) s = (map snd (dn ++ [(o, v)]), s2).
Proof.
  induction dn as [|[o1 v1] dn IH]; intros s s1 s2 H HF HR HE; cbn in *.
  - injection H as <-. unfold ended_call in HE. cbn in HE. rewrite HR. now destruct v as [a|[]].
  - inversion HF as [|? ? HE1 HF1]; subst. unfold ended_call in HE1. cbn in HE1. destruct (run_op o1 s) as [v' s'] eqn:E.
    assert (HV : v' = v1 /\ run_ops (map fst dn) s' = (map snd dn, s1)).
    { destruct v' as [a|[k|l| |]]; try (destruct (run_ops (map fst dn) s') as [rs s3]; injection H as <- <- <-; auto; contradiction). }
    destruct HV as [-> HV]. rewrite (IH _ _ _ HV HF1 HR HE). destruct v1 as [a|[k|l| |]]; auto; contradiction.
Qed.
Definition as_calls (s : st) (t : stream) : Prop := run_ops (map fst (t_done t)) s = (map snd (t_done t), t_st t) /\ Forall ended_call (t_done t).
Lemma as_calls_same s t t' : t_st t' = t_st t -> t_done t' = t_done t -> as_calls s t -> as_calls s t'.
Proof. unfold as_calls. intros -> ->. auto. Qed.
Lemma as_calls_ensure s sl o b t : as_calls s t -> as_calls s (ensure sl o b t).
Proof. apply as_calls_same; unfold ensure; now destruct (t_slot t sl). Qed.
Lemma as_calls_set s sl v t : as_calls s t -> as_calls s (set_slot sl v t).
Proof. now apply as_calls_same. Qed.
Lemma as_calls_polled s sl t r t' : as_calls s t -> polled sl t r t' -> unbroken r -> as_calls s t'.
Proof.
  intros HA H HU. destruct H as [H|H|o b H|o b lk v s1 bg HB HR HL]; try assumption. destruct HA as [HA HF].
  destruct v as [a|[k|l| |]].
  - split; [|apply Forall_app; split; [exact HF|constructor; [exact I|constructor]]]. cbn. eapply run_ops_snoc; eauto. exact I.
  - split; [|apply Forall_app; split; [exact HF|constructor; [exact I|constructor]]]. cbn. eapply run_ops_snoc; eauto. exact I.
  - now elim (HU l).
  - now split.
  - now split.
Qed.
Lemma as_calls_act s a t r t' : as_calls s t -> a <> DropOwnClose -> act a t = (r, t') -> unbroken r -> as_calls (match a with Arrive evs => arrive evs s | _ => s end) t'.
Proof.
  intros HA HD H HU. destruct a; cbn [act] in H.
  - injection H as <- <-. destruct HA as [HA HF]. split; [|exact HF]. now apply run_ops_more.
  - unfold poll_read in H. use_poll H HP; apply (as_calls_polled s) in HP; try (now apply as_calls_ensure); try (now intros l' [=]).
    + destruct v; [destruct (Nat.eqb _ _)|..]; injection H as <- <-; auto using as_calls_set.
    + now injection H as <- <-.
    + now injection H as <- <-.
    + now injection H as <- <-.
    + injection H as <- <-. intros l' [= ->]. now elim (HU l').
  - unfold poll_write in H. use_poll H HP; apply (as_calls_polled s) in HP; try (now apply as_calls_ensure); try (now intros l' [=]).
    + destruct v; injection H as <- <-; auto using as_calls_set.
    + now injection H as <- <-.
    + now injection H as <- <-.
    + now injection H as <- <-.
    + injection H as <- <-. intros l' [= ->]. now elim (HU l').
  - unfold poll_flush, finish_unit in H. use_poll H HP; apply (as_calls_polled s) in HP; try (now apply as_calls_ensure); try (now intros l' [=]); injection H as <- <-; auto using as_calls_set.
    intros l' [= ->]. now elim (HU l').
  - unfold poll_close, finish_unit in H. use_poll H HP; apply (as_calls_polled s) in HP; try assumption; try (now intros l' [=]); injection H as <- <-; auto using as_calls_set.
    intros l' [= ->]. now elim (HU l').
  - unfold poll_own_close, finish_unit in H. use_poll H HP; apply (as_calls_polled s) in HP; try (now apply as_calls_ensure); try (now intros l' [=]); injection H as <- <-; auto using as_calls_set.
    intros l' [= ->]. now elim (HU l').
  - now elim HD.
  - unfold poll_set_retries in H. destruct (t_lock t); [now injection H as <- <-|]. destruct grant; injection H as <- <-; [|assumption]. destruct HA as [HA HF].
    split; [|apply Forall_app; split; [exact HF|constructor; [exact I|constructor]]]. eapply run_ops_snoc; [exact HA|exact HF|reflexivity|exact I].
  - now injection H as <- <-.
  - now injection H as <- <-.
Qed.
Lemma schedule_calls l : forall s t rs t', as_calls s t -> acts l t = (rs, t') -> Forall unbroken rs -> ~ In DropOwnClose l -> as_calls (arrive (arrived l) s) t'.
Proof.
  induction l as [|a l IH]; intros s t rs t' HA H HU HD; cbn in H; [injection H as <- <-; cbn; now rewrite arrive_nil|].
  destruct (act a t) as [r t1] eqn:E1. destruct (acts l t1) as [rs1 t2] eqn:E2. injection H as <- <-. inversion HU; subst.
  assert (HA1 := as_calls_act s a t r t1 HA (fun E => HD (or_introl E)) E1 ltac:(assumption)). assert (HD1 : ~ In DropOwnClose l) by (intros E; apply HD; now right).
  specialize (IH _ _ _ _ HA1 E2 ltac:(assumption) HD1). destruct a; cbn [arrived]; try exact IH. now rewrite <- arrive_arrive.
Qed.

(** ** Incoming connections *)
Fixpoint accept_all (s : st) (q : list (rx * result addr kind * result unit kind)) : list (outcome addr) * st :=
  match q with
  | [] => ([], s)
  | (ev, la, bd) :: rest => let (o, s1) := accept ev la bd s in let (os, s2) := accept_all s1 rest in (o :: os, s2)
  end.
Definition item_of (o : outcome addr) : item :=
  match o with Ret a => Item (Ok a) | Fail (Throw k) => Item (Err k) | Fail (Panic l) => Broke (InSocket l) | Fail _ => NotYet end.
Definition yielded (r : item) : bool := match r with Item _ => true | _ => false end.
Fixpoint queued (l : list iact) : list (rx * result addr kind * result unit kind) :=
  match l with [] => [] | IArrive q :: rest => q ++ queued rest | IPoll :: rest => queued rest end.
Definition pending_accepts (i : incoming) : nat := match i_fut i with None => 0 | Some _ => 1 end.
Lemma incoming_items l : forall i rs i', iacts l i = (rs, i') -> (forall c, ~ In (Broke c) rs) -> i_fut i <> Some true ->
  exists taken os, i_queue i ++ queued l = taken ++ i_queue i' /\ accept_all (i_st i) taken = (os, i_st i') /\
    filter yielded rs = map item_of os /\ Forall (fun r => r = NotYet \/ exists x, r = Item x) rs /\
    (i_begun i' + pending_accepts i = i_begun i + length os + pending_accepts i')%nat /\ i_fut i' <> Some true.
Proof.
  induction l as [|a l IH]; intros i rs i' H HB HF; cbn [iacts queued] in *.
  - injection H as <- <-. exists [], []. rewrite app_nil_r. cbn. repeat split; auto.
  - destruct a.
    + apply IH in H; [|assumption..]. cbn [i_queue i_st i_begun i_fut pending_accepts] in H. rewrite <- app_assoc in H. exact H.
    + destruct (poll_next i) as [r i1] eqn:E. destruct (iacts l i1) as [rs1 i2] eqn:E2. injection H as <- <-.
      assert (HB1 : forall c, ~ In (Broke c) rs1) by (intros c Hc; apply (HB c); now right). assert (HBr : forall c, r <> Broke c) by (intros c ->; apply (HB c); now left).
      unfold poll_next in E. remember (match i_fut i with None => mkIncoming (i_st i) (i_queue i) (Some false) (S (i_begun i)) | Some _ => i end) as i0 eqn:E0.
      assert (H0 : i_st i0 = i_st i /\ i_queue i0 = i_queue i /\ i_fut i0 = Some false /\ (i_begun i0 + pending_accepts i = i_begun i + 1)%nat).
      { unfold pending_accepts. destruct (i_fut i) as [[]|] eqn:EF; subst i0; cbn; repeat split; auto; try lia; now elim HF. }
      clear E0. destruct H0 as (S0 & Q0 & F0 & B0). rewrite F0 in E. destruct (i_queue i0) as [|[[ev la] bd] rest] eqn:EQ.
      * injection E as <- <-. destruct (IH _ _ _ E2 HB1) as (tk & os & T1 & T2 & T3 & T4 & T5 & T6); [congruence|]. exists tk, os. rewrite <- Q0, <- EQ. rewrite <- S0.
        split; [exact T1|]. split; [exact T2|]. split; [exact T3|]. split; [constructor; auto|]. split; [|exact T6]. unfold pending_accepts in *. rewrite F0 in T5. lia.
      * assert (HI : forall a s o, accept ev la bd (i_st i0) = (o, s) -> r = Item a -> item_of o = Item a -> i1 = mkIncoming s rest None (i_begun i0) ->
          exists taken os, i_queue i ++ queued l = taken ++ i_queue i2 /\ accept_all (i_st i) taken = (os, i_st i2) /\
            filter yielded (r :: rs1) = map item_of os /\ Forall (fun r => r = NotYet \/ exists x, r = Item x) (r :: rs1) /\
            (i_begun i2 + pending_accepts i = i_begun i + length os + pending_accepts i2)%nat /\ i_fut i2 <> Some true).
        { intros a s o HA -> HO ->. destruct (IH _ _ _ E2 HB1) as (tk & os & T1 & T2 & T3 & T4 & T5 & T6); [discriminate|]. exists ((ev, la, bd) :: tk), (o :: os).
          cbn [i_queue i_st i_begun i_fut] in *. rewrite <- Q0, <- S0. split; [cbn; now rewrite T1|]. split; [cbn [accept_all]; rewrite HA, T2; reflexivity|].
          split; [cbn; rewrite HO, T3; reflexivity|]. split; [constructor; eauto|]. split; [cbn [length]; cbn [pending_accepts i_fut] in T5; lia|exact T6]. }
        assert (HP : i1 = i0 -> r = NotYet ->
          exists taken os, i_queue i ++ queued l = taken ++ i_queue i2 /\ accept_all (i_st i) taken = (os, i_st i2) /\
            filter yielded (r :: rs1) = map item_of os /\ Forall (fun r => r = NotYet \/ exists x, r = Item x) (r :: rs1) /\
            (i_begun i2 + pending_accepts i = i_begun i + length os + pending_accepts i2)%nat /\ i_fut i2 <> Some true).
        { intros -> ->. destruct (IH _ _ _ E2 HB1) as (tk & os & T1 & T2 & T3 & T4 & T5 & T6); [congruence|]. exists tk, os. rewrite <- Q0, <- EQ. rewrite <- S0.
          split; [exact T1|]. split; [exact T2|]. split; [exact T3|]. split; [constructor; auto|]. split; [|exact T6]. unfold pending_accepts in *. rewrite F0 in T5. lia. }
        destruct (accept ev la bd (i_st i0)) as [[a|[k|p| |]] s] eqn:EA; injection E as <- <-.
        -- eapply HI; eauto.
        -- eapply HI; eauto.
        -- now elim (HBr (InSocket p)).
        -- now apply HP.
        -- now apply HP.
Qed.
(** A poll with something queued makes progress. *)
Lemma incoming_progress i e rest : i_queue i = e :: rest -> i_fut i <> Some true -> fst (accept (fst (fst e)) (snd (fst e)) (snd e) (i_st i)) <> Fail Pend ->
  fst (accept (fst (fst e)) (snd (fst e)) (snd e) (i_st i)) <> Fail NoFuel ->
  fst (poll_next i) = item_of (fst (accept (fst (fst e)) (snd (fst e)) (snd e) (i_st i))).
Proof.
  intros HQ HF HP HN. destruct e as [[ev la] bd]. cbn [fst snd] in *. unfold poll_next. destruct (i_fut i) as [[]|] eqn:EF; [now elim HF| |]; cbn [i_fut i_queue i_st]; rewrite ?EF, HQ;
    destruct (accept ev la bd (i_st i)) as [[a|[k|p| |]] s]; cbn [fst] in *; reflexivity || congruence.
Qed.
Lemma incoming_release l : forall i rs i', iacts l i = (rs, i') -> w_chk (wd (i_st i)) = false -> i_fut i <> Some true -> forall c, ~ In (Broke c) rs.
Proof.
  induction l as [|a l IH]; intros i rs i' H HC HF c; cbn [iacts] in H; [injection H as <- <-; auto|].
  destruct a; [eapply IH; eauto|]. destruct (poll_next i) as [r i1] eqn:E. destruct (iacts l i1) as [rs1 i2] eqn:E2. injection H as <- <-.
  assert (HX : w_chk (wd (i_st i1)) = false /\ i_fut i1 <> Some true /\ forall c, r <> Broke c).
  { unfold poll_next in E. remember (match i_fut i with None => mkIncoming (i_st i) (i_queue i) (Some false) (S (i_begun i)) | Some _ => i end) as i0 eqn:E0.
    assert (H0 : i_st i0 = i_st i /\ i_fut i0 = Some false) by (destruct (i_fut i) as [[]|] eqn:EF; subst i0; auto; now elim HF). clear E0. destruct H0 as [S0 F0]. rewrite F0 in E.
    destruct (i_queue i0) as [|[[ev la] bd] rest]; [injection E as <- <-; rewrite S0, F0; repeat split; congruence|].
    pose proof (accept_born ev la bd (i_st i0)) as (HB & _ & HP). destruct (accept ev la bd (i_st i0)) as [o s]. cbn [fst snd] in HB, HP. rewrite S0 in HB.
    destruct o as [b|[k|p| |]]; injection E as <- <-; cbn [i_st i_fut]; try (repeat split; congruence).
    - destruct (HP p eq_refl). congruence. }
  destruct HX as (X1 & X2 & X3). intros [Hr|Hr]; [now elim (X3 c)|]. eapply IH; eauto.
Qed.

(** ** The inherent close *)
Lemma underway_own_close t0 t g r t' : coherent t -> underway SlOwnClose OClose [] t0 t -> poll_own_close g t = (r, t') -> r = Pending -> underway SlOwnClose OClose [] t0 t'.
Proof.
  intros HC HU H ->. apply underway_ensure in HU as [HU HN]. unfold poll_own_close, finish_unit in H. use_poll H HP; try discriminate.
  injection H as <-. eapply underway_pending; eauto.
Qed.
Definition is_own_close (a : action) : Prop := exists g, a = PollOwnClose g.
Lemma own_close_call l t rs t1 g r t2 : coherent t -> t_slot t SlOwnClose = None -> acts l t = (rs, t1) -> waits SlOwnClose is_own_close l rs ->
  poll_own_close g t1 = (r, t2) -> r <> Pending ->
  exists v bg dn, run_op OClose (t_st t1) = (v, t_st t2) /\ Forall (foreign SlOwnClose) bg /\ Forall (fun x => foreign SlOwnClose (fst x)) dn /\
    t_begun t2 = t_begun t ++ bg ++ [OClose] /\ t_done t2 = t_done t ++ dn ++ [(OClose, v)] /\ t_lock t2 = None /\
    match v with
    | Ret _ => r = Ready (Ok SvUnit) /\ t_slot t2 SlOwnClose = None
    | Fail (Throw k) => r = Ready (Err k) /\ t_slot t2 SlOwnClose = None
    | Fail (Panic l) => r = Crash (InSocket l)
    | _ => False
    end.
Proof.
  intros HC HN HA HW H HP.
  assert (HU : underway SlOwnClose OClose [] t t1).
  { eapply (underway_acts SlOwnClose _ _ is_own_close t); eauto; [discriminate| |now apply underway_start].
    intros a x r' x' _ [g' ->] HCx HUx Ex Er. eapply underway_own_close; eauto. }
  apply underway_ensure in HU as [HU HE]. assert (HST : t_st (ensure SlOwnClose OClose [] t1) = t_st t1) by (unfold ensure; now destruct (t_slot t1 SlOwnClose)).
  unfold poll_own_close, finish_unit in H. destruct (poll_future SlOwnClose g _) as [q t3] eqn:E. apply poll_future_cases in E.
  assert (HQ : q <> Pending). { intros ->. injection H as <- <-. now elim HP. }
  destruct (underway_ends _ _ _ _ _ _ _ HU HE E HQ) as (v & bg & dn & HR & F1 & F2 & B & D & L & S & HV). rewrite HST in HR. exists v, bg, dn.
  destruct v as [a|[k|p| |]]; try contradiction; subst q; injection H as <- <-; repeat (split; [assumption|]); auto; (split; [reflexivity|]); apply (set_get SlOwnClose None t3).
Qed.

(** ** Which panics are possible *)
(** In release builds no panic comes from the socket. *)
Definition quiet (t : stream) : Prop := ok (t_st t) /\ w_chk (wd (t_st t)) = false.
Lemma quiet_same t t' : t_st t' = t_st t -> quiet t -> quiet t'. Proof. unfold quiet. now intros ->. Qed.
Lemma quiet_run o s : ok s -> w_chk (wd s) = false -> ok (snd (run_op o s)) /\ w_chk (wd (snd (run_op o s))) = false /\ forall l, fst (run_op o s) <> Fail (Panic l).
Proof. intros H1 H2. pose proof (safe_run_op o s H1) as (C & R & HP). split; [exact R|]. split; [congruence|]. intros l E. destruct (HP l E). congruence. Qed.
Lemma quiet_polled sl t r t' : quiet t -> polled sl t r t' -> quiet t' /\ unbroken r.
Proof.
  intros HQ H. destruct H as [H|H|o b H|o b lk v s1 bg HB HR HL]; try (split; [exact HQ|now intros l [=]]). destruct HQ as [Q1 Q2].
  pose proof (quiet_run o _ Q1 Q2) as (K1 & K2 & K3). rewrite HR in K1, K2, K3. cbn [fst snd] in K1, K2, K3. destruct v as [a|[k|l| |]]; try (split; [now split|now intros l' [=]]). now elim (K3 l).
Qed.
Lemma quiet_act a t r t' : quiet t -> act a t = (r, t') -> quiet t' /\ unbroken r.
Proof.
  assert (HE : forall sl o b, quiet t -> quiet (ensure sl o b t)) by (intros sl o b; apply quiet_same; unfold ensure; now destruct (t_slot t sl)).
  intros HQ H. destruct a; cbn [act] in H.
  - injection H as <- <-. split; [exact HQ|now intros l [=]].
  - unfold poll_read in H. use_poll H HP; apply quiet_polled in HP as [HP HU]; auto.
    + destruct v; [destruct (Nat.eqb _ _)|..]; injection H as <- <-; (split; [exact HP|now intros l' [=]]).
    + injection H as <- <-. split; [exact HP|now intros l' [=]].
    + injection H as <- <-. split; [exact HP|now intros l' [=]].
    + injection H as <- <-. split; [exact HP|]. intros l' [= ->]. now elim (HU l').
  - unfold poll_write in H. use_poll H HP; apply quiet_polled in HP as [HP HU]; auto.
    + destruct v; injection H as <- <-; (split; [exact HP|now intros l' [=]]).
    + injection H as <- <-. split; [exact HP|now intros l' [=]].
    + injection H as <- <-. split; [exact HP|now intros l' [=]].
    + injection H as <- <-. split; [exact HP|]. intros l' [= ->]. now elim (HU l').
  - unfold poll_flush, finish_unit in H. use_poll H HP; apply quiet_polled in HP as [HP HU]; auto; injection H as <- <-; try (split; [exact HP|now intros l' [=]]).
    split; [exact HP|]. intros l' [= ->]. now elim (HU l').
  - unfold poll_close, finish_unit in H. use_poll H HP; apply quiet_polled in HP as [HP HU]; auto; injection H as <- <-; try (split; [exact HP|now intros l' [=]]).
    split; [exact HP|]. intros l' [= ->]. now elim (HU l').
  - unfold poll_own_close, finish_unit in H. use_poll H HP; apply quiet_polled in HP as [HP HU]; auto; injection H as <- <-; try (split; [exact HP|now intros l' [=]]).
    split; [exact HP|]. intros l' [= ->]. now elim (HU l').
  - injection H as <- <-. split; [|now intros l [=]]. unfold drop_own_close. destruct (t_slot t SlOwnClose) as [[o b|o b n|]|]; try exact HQ. destruct HQ as [Q1 Q2].
    destruct (quiet_run o (cancel_at n (t_st t)) Q1 Q2) as (K1 & K2 & _). now split.
  - unfold poll_set_retries in H. destruct (t_lock t); [injection H as <- <-; split; [exact HQ|now intros l [=]]|]. destruct grant; injection H as <- <-; (split; [|now intros l [=]]); [|exact HQ].
    destruct HQ as [Q1 Q2]. destruct (quiet_run (OSetRetries n) (t_st t) Q1 Q2) as (K1 & K2 & _). now split.
  - injection H as <- <-. split; [exact HQ|]. intros l. unfold stream_peer_addr. destruct (t_lock t); [congruence|]. destruct (fst _) as [a|[]]; congruence.
  - injection H as <- <-. split; [exact HQ|]. intros l. unfold stream_local_addr. destruct (t_lock t); [congruence|]. destruct os; congruence.
Qed.
Lemma quiet_acts l : forall t rs t', quiet t -> acts l t = (rs, t') -> Forall unbroken rs.
Proof.
  induction l as [|a l IH]; intros t rs t' HQ H; cbn in H; [injection H as <- <-; constructor|]. destruct (act a t) as [r t1] eqn:E1. destruct (acts l t1) as [rs1 t2] eqn:E2.
  injection H as <- <-. destruct (quiet_act _ _ _ _ HQ E1). constructor; eauto.
Qed.
(** A failed read or write leaves its completed future in the slot. *)
Lemma read_error_sticks buf g t k t' buf' g' : poll_read buf g t = (Ready (Err k), t') -> poll_read buf' g' t' = (Crash Resumed, t').
Proof.
  intros H. unfold poll_read in H. use_poll H HP.
  - destruct v; [destruct (Nat.eqb _ _)|..]; discriminate.
  - injection H as _ <-. apply ready_finished in HP as [HP _]. unfold poll_read, ensure, poll_future. rewrite HP. rewrite HP. reflexivity.
  - discriminate.
  - discriminate.
Qed.
Lemma write_error_sticks buf g t k t' buf' g' : poll_write buf g t = (Ready (Err k), t') -> poll_write buf' g' t' = (Crash Resumed, t').
Proof.
  intros H. unfold poll_write in H. use_poll H HP.
  - destruct v; discriminate.
  - injection H as _ <-. apply ready_finished in HP as [HP _]. unfold poll_write, ensure, poll_future. rewrite HP. rewrite HP. reflexivity.
  - discriminate.
  - discriminate.
Qed.
(** While the slot is not occupied by a completed future a poll does not panic by itself. *)
Lemma read_panics buf g t c t' : coherent t -> t_slot t SlRead <> Some Finished ->
  (forall o b n, t_slot t SlRead = Some (Waiting o b) \/ t_slot t SlRead = Some (Running o b n) -> length b = length buf) ->
  poll_read buf g t = (Crash c, t') -> exists l, c = InSocket l.
Proof.
  intros HC HF HL H. unfold poll_read in H. destruct (poll_future _ _ _) as [q t1] eqn:E. apply poll_future_cases in E. set (t0 := ensure _ _ _ t) in *.
  assert (HC0 : coherent t0) by now apply coherent_ensure.
  assert (H0 : forall o b n, t_slot t0 SlRead = Some (Waiting o b) \/ t_slot t0 SlRead = Some (Running o b n) -> length b = length buf).
  { intros o b n. unfold t0, ensure. destruct (t_slot t SlRead) eqn:ES; [rewrite ES; apply HL|]. rewrite set_get. intros [[= <- <-]|]; [reflexivity|discriminate]. }
  assert (HN : t_slot t0 SlRead <> None /\ t_slot t0 SlRead <> Some Finished). { unfold t0, ensure. destruct (t_slot t SlRead) eqn:ES; [rewrite ES; split; congruence|]. rewrite set_get. split; discriminate. }
  destruct E as [E|E|o b E|o b lk v s bg HB HR HK]; try (now elim HN); try discriminate.
  assert (HO : o = ORecvFrom (length b)). { apply (co_ops _ HC0 SlRead). destruct HB as [[HB _]|(HB & _ & _)]; auto. }
  assert (HB2 : length b = length buf). { destruct HB as [[[n HB] _]|(HB & _ & _)]; [apply (H0 o b n); auto|apply (H0 o b 0%nat); auto]. }
  destruct v as [a|[k|l| |]]; try discriminate; [|injection H as <- _; now exists l]. subst o. cbn [run_op] in HR. unfold bind in HR.
  destruct (recv_from _ _) as [[[d src]|e] s1] eqn:ER; [|discriminate]. injection HR as <- HR. cbn [fst snd] in H. pose proof (recv_from_bound _ _ _ _ ER) as HB1. cbn [fst] in HB1.
  assert (HE : Nat.eqb (length buf) (length (d ++ skipn (length d) b)) = true) by (rewrite app_length, skipn_length; lia). rewrite HE in H. discriminate.
Qed.
Lemma write_panics buf g t c t' : coherent t -> t_slot t SlWrite <> Some Finished -> poll_write buf g t = (Crash c, t') -> exists l, c = InSocket l.
Proof.
  intros HC HF H. unfold poll_write in H. destruct (poll_future _ _ _) as [q t1] eqn:E. apply poll_future_cases in E. set (t0 := ensure _ _ _ t) in *.
  assert (HC0 : coherent t0) by (apply coherent_ensure; [now exists buf|exact HC]).
  assert (HN : t_slot t0 SlWrite <> None /\ t_slot t0 SlWrite <> Some Finished). { unfold t0, ensure. destruct (t_slot t SlWrite) eqn:ES; [rewrite ES; split; congruence|]. rewrite set_get. split; discriminate. }
  destruct E as [E|E|o b E|o b lk v s bg HB HR HK]; try (now elim HN); try discriminate.
  assert (HO : exists d, o = OSendTo d). { apply (co_ops _ HC0 SlWrite o b). destruct HB as [[HB _]|(HB & _ & _)]; auto. }
  destruct HO as [d ->]. destruct v as [a|[k|l| |]]; try discriminate; [|injection H as <- _; now exists l]. cbn [run_op] in HR. unfold bind in HR.
  destruct (send_to _ _) as [[n|e] s1] eqn:ER; [|discriminate]. injection HR as <- HR. discriminate.
Qed.
(** The slot of [poll_flush] never holds a completed future between polls, unless the socket panicked. *)
Lemma flush_resets g t r t' : poll_flush g t = (Ready r, t') -> t_slot t' SlFlush = None.
Proof. intros H. unfold poll_flush, finish_unit in H. use_poll H HP; try discriminate; injection H as _ <-; apply set_get. Qed.
Lemma Forall2_weaken {A B} (P Q : A -> B -> Prop) l l' : (forall a b, P a b -> Q a b) -> Forall2 P l l' -> Forall2 Q l l'.
Proof. induction 2; constructor; auto. Qed.
