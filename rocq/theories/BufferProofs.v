(** Lemmas for C07, C16, C17, C56. *)
From Verif Require Export SackProofs.
From Coq Require Export Sorting.Permutation.
Require Import ZifyBool ZifyNat ZifyN.
Local Open Scope Z_scope.
Ltac Zify.zify_post_hook ::= Z.div_mod_to_equations.

(** ** C07 *)
(** A datagram with one selective-ack extension too long for its length byte. *)
Definition overlong (p : packet) : Prop := exists h sack, p = wire h [(x01, sack)] [] /\ (256 <= length sack)%nat.
Definition sendable (p : packet) : Prop := valid p \/ overlong p.
Lemma wire_valid h exts pl : Forall wf_ext exts -> valid (wire h exts pl).
Proof. intros H. unfold valid. now apply parse_wire. Qed.
Lemma valid_utp p : valid p <-> is_utp p.
Proof.
  split; [intros H; apply parse_inv in H; apply H|]. intros (h & exts & pl & _ & H & ->). now apply wire_valid.
Qed.
Lemma reply_exts_sendable k h exts : reply_exts k exts -> sendable (wire h exts []).
Proof.
  intros [->|(sack & HN & HB & ->)]; [left; now apply wire_valid|].
  destruct (sack_build_spec (s_ack_nr k) (s_incoming_buffer k) [] eq_refl) as (sack' & E & HL & _). rewrite HB in E. injection E as <-.
  destruct (Nat.lt_ge_cases (length sack) 256) as [L|L]; [left|right; exists h, sack; auto].
  apply wire_valid. constructor; [|constructor]. split; [discriminate|]. cbn [snd]. unfold zlen. destruct sack; [congruence|]. cbn [length] in *. lia.
Qed.
Lemma log_sendable s : reachable s -> Forall (fun x => sendable (snd x)) (w_sent (wd s)).
Proof.
  intros HR. apply (reachable_log_inv (fun _ log => Forall (fun x => sendable (snd x)) log)); auto.
  - intros k log _ H. eapply Forall_impl; [|exact H]. cbn beta. intros x (cid & ts & ->). left. now apply wire_valid.
  - assert (HT : forall dest p t, Forall (fun x => sendable (snd x)) (w_sent (wd t)) -> sendable p -> Forall (fun x => sendable (snd x)) (w_sent (wd (tx_state dest p t)))).
    { intros dest p t H1 H2. unfold tx_state. destruct (tx_ok t); cbn; [apply Forall_app; auto|exact H1]. }
    intros t t' H HW HI. destruct H; try exact HI.
    + destruct H; try exact HI. apply HT; [exact HI|]. destruct H.
      * eapply reply_exts_sendable; eauto.
      * left. now apply wire_valid.
      * left. now apply wire_valid.
      * left. destruct H as (h & pl & -> & _). now apply wire_valid.
    + apply HT; [exact HI|]. left. now apply wire_valid.
  - intros k log dest r H1 H2. apply Forall_app. split; [exact H1|]. constructor; [|constructor]. destruct H2. eapply reply_exts_sendable; eauto.
Qed.
(** Bitmaps stay short while everything buffered is near. *)
Lemma near_sack k : (forall p, In p (s_incoming_buffer k) -> u16 (seq_nr p - s_ack_nr k - 2) < 2016 \/ seq_nr p <= u16 (s_ack_nr k + 1)) ->
  forall h exts, reply_exts k exts -> valid (wire h exts []).
Proof.
  intros H h exts [->|(sack & HN & HB & ->)]; [now apply wire_valid|].
  destruct (sack_build_spec (s_ack_nr k) (s_incoming_buffer k) [] eq_refl) as (sack' & E & HL & _ & HM & _). rewrite HB in E. injection E as <-.
  specialize (HM 252%nat ltac:(cbn; lia) eq_refl). assert (length sack <= 252)%nat by (apply HM; intros p Hp; destruct (H p Hp); [left|right]; lia).
  apply wire_valid. constructor; [|constructor]. split; [discriminate|]. cbn [snd]. unfold zlen. destruct sack; [congruence|]. cbn [length] in *. lia.
Qed.

(** ** C16 *)
Lemma insert_spec p buf : StronglySorted seq_lt buf ->
  ((exists q, In q buf /\ seq_nr q = seq_nr p) -> insert_packet p buf = buf) /\
  (~ (exists q, In q buf /\ seq_nr q = seq_nr p) -> Permutation (p :: buf) (insert_packet p buf)).
Proof.
  intros HS. destruct (insert_packet_spec p buf HS) as (a & b & E & Ha & Hb & ->). split.
  - intros (q & Hq & Eq). subst buf. apply in_app_or in Hq as [Hq|Hq]; [specialize (Ha q Hq); lia|].
    destruct b as [|r b]; [destruct Hq|]. destruct (seq_nr r =? seq_nr p) eqn:EE; [reflexivity|exfalso].
    destruct Hq as [->|Hq]; [lia|]. apply sorted_app_inv in HS as (_ & HS & _). inversion HS as [|? ? _ HF]; subst.
    rewrite Forall_forall in HF. specialize (HF q Hq). unfold seq_lt in HF. specialize (Hb r (or_introl eq_refl)). lia.
  - intros HN. subst buf. destruct b as [|q b].
    + rewrite app_nil_r. apply Permutation_cons_append.
    + destruct (seq_nr q =? seq_nr p) eqn:EE; [exfalso; apply HN; exists q; split; [apply in_or_app; right; now left|lia]|].
      apply Permutation_middle.
Qed.

Lemma insert_sorted p buf : StronglySorted seq_lt buf -> StronglySorted seq_lt (insert_packet p buf).
Proof.
  intros HS. destruct (insert_packet_spec p buf HS) as (a & b & E & Ha & Hb & ->). subst buf. apply sorted_app_inv in HS as (S1 & S2 & S3).
  destruct b as [|q b]; [apply sorted_app_intro; [exact S1|repeat constructor|]; intros x y Hx [<-|[]]; exact (Ha x Hx)|].
  specialize (Hb q (or_introl eq_refl)) as Hq. destruct (seq_nr q =? seq_nr p) eqn:EE; [apply sorted_app_intro; auto|].
  apply sorted_app_intro; [exact S1| |].
  - constructor; [exact S2|]. inversion S2 as [|? ? _ HF]; subst. constructor; [unfold seq_lt; lia|]. eapply Forall_impl; [|exact HF]. unfold seq_lt. cbn beta. intros; lia.
  - intros x y Hx [<-|Hy]; [exact (Ha x Hx)|]. now apply S3.
Qed.
Lemma sorted_nodup buf : StronglySorted seq_lt buf -> NoDup (map seq_nr buf).
Proof.
  induction 1 as [|p buf HS IH HF]; cbn [map]; constructor; auto. intros HI. apply in_map_iff in HI as (q & E & Hq).
  rewrite Forall_forall in HF. specialize (HF q Hq). unfold seq_lt in HF. lia.
Qed.

(** ** C17: reading what has already been received *)
Definition payload_of (p : packet) : list byte := match payload p with Some pl => pl | None => [] end.
(** The bytes of the packets that follow [ack] without a gap (the first may also be [ack] itself), up to the
    first packet with an empty payload: on meeting one, [recv_from] drops it and waits for the network. *)
Fixpoint ready_bytes (ack : Z) (buf : list packet) : list byte :=
  match buf with
  | [] => []
  | p :: rest => if (seq_nr p =? ack) || (seq_nr p =? (ack + 1) mod 65536) then match payload_of p with [] => [] | pl => pl ++ ready_bytes (seq_nr p) rest end else []
  end.
(** All the bytes that can be read without receiving anything more. *)
Definition available (k : socket) : list byte :=
  match s_pending_data k, s_incoming_buffer k with
  | [], buf => ready_bytes (s_ack_nr k) buf
  | pend, [] => pend
  | pend, p :: rest => pend ++ ready_bytes (seq_nr p) rest
  end.
(** Calls of [recv_from] with the given buffer sizes, each returning some bytes. *)
Inductive reads : st -> list nat -> list (list byte) -> st -> Prop :=
| rd_nil s : reads s [] [] s
| rd_cons s n d src s1 ns ds s2 : recv_from n s = (Ret (d, src), s1) -> reads s1 ns ds s2 -> reads s (n :: ns) (d :: ds) s2.

Lemma buffered_payload p : buffered p -> payload p = Some (payload_of p).
Proof. intros [H _]. apply parse_inv in H as [_ (h & exts & pl & _ & Hw & ->)]. unfold payload_of. now rewrite payload_wire. Qed.

(** In a build with overflow checks, reading panics when [ack_nr] is 65535 and the first buffered packet is another. *)
Definition no_wrap_panic (s : st) : Prop := w_chk (wd s) = false \/ s_ack_nr (sk s) < 65535 \/ s_incoming_buffer (sk s) = [].

Lemma flush_run n s : no_wrap_panic s -> 0 <= s_ack_nr (sk s) -> buf_inv (sk s) ->
  flush_incoming_buffer n s = (Ret (fst (flush_sk n (sk s))), mkSt (snd (flush_sk n (sk s))) (wd s)).
Proof.
  intros HN HA HB. pose proof (flush_incoming_spec n s) as HW. unfold wp in HW.
  assert (HP : forall l, fst (flush_incoming_buffer n s) <> Fail (Panic l)).
  { unfold flush_incoming_buffer, bind, get_sk. cbn [fst]. destruct (negb _); [destruct (_ =? _)%nat; discriminate|].
    destruct (s_incoming_buffer (sk s)) as [|p rest] eqn:EB; [discriminate|].
    assert (HPl : payload p = Some (payload_of p)). { apply buffered_payload. unfold buf_inv in HB. rewrite EB in HB. destruct HB as [_ HB]. now inversion HB. }
    assert (HC : forall l, fst ((if s_ack_nr (sk s) =? seq_nr p then ret true else next <- ck_u16 574 (s_ack_nr (sk s) + 1) ;; ret (next =? seq_nr p)) s) <> Fail (Panic l) /\
      snd ((if s_ack_nr (sk s) =? seq_nr p then ret true else next <- ck_u16 574 (s_ack_nr (sk s) + 1) ;; ret (next =? seq_nr p)) s) = s).
    { intros l. destruct (_ =? _); [split; [discriminate|reflexivity]|]. unfold bind, ck_u16, arith.
      destruct (w_chk (wd s) && negb ((0 <=? s_ack_nr (sk s) + 1) && (s_ack_nr (sk s) + 1 <=? 2 ^ 16 - 1))) eqn:EC; [|split; [discriminate|reflexivity]].
      exfalso. apply andb_prop in EC as [E1 E2]. destruct HN as [HN|[HN|HN]]; try congruence. pose proof (Z.le_gt_cases 0 (s_ack_nr (sk s) + 1)).
      change (2 ^ 16 - 1) with 65535 in E2. destruct (0 <=? s_ack_nr (sk s) + 1) eqn:E3; cbn in E2; [lia|].
      cbn in E2. lia. }
    fold (@ret bool). match goal with |- forall l, fst (match ?X with _ => _ end) <> _ => destruct X as [[r|f] s1] eqn:ER end.
    - intros l. unfold unwrap. destruct r; [|discriminate]. rewrite HPl. cbn. destruct (_ =? _)%nat; discriminate.
    - intros l. specialize (HC l). cbn [fst] in *. intros [= ->]. apply (proj1 HC). unfold bind in ER |- *. now rewrite ER. }
  destruct (flush_incoming_buffer n s) as [[d|[]] s'] eqn:E; cbn [fst snd] in *; try contradiction.
  - destruct HW as [-> ->]. reflexivity.
  - now destruct (HP line).
Qed.

Lemma fin_or_rest {A} n (l : list A) : (length (firstn n l) =? length l)%nat = true /\ firstn n l = l \/
  (length (firstn n l) =? length l)%nat = false /\ firstn n l ++ skipn (length (firstn n l)) l = l /\ skipn (length (firstn n l)) l <> [].
Proof.
  pose proof (firstn_length n l) as HL. destruct (length (firstn n l) =? length l)%nat eqn:E; [left|right]; split; auto.
  - apply firstn_all2. apply Nat.eqb_eq in E. lia.
  - apply Nat.eqb_neq in E. assert (length (firstn n l) = n) as -> by lia. split; [apply firstn_skipn|].
    intros H. apply (f_equal (@length A)) in H. rewrite skipn_length in H. cbn in H. lia.
Qed.
Lemma buffer_ok_tail p rest : buffer_ok (p :: rest) -> buffer_ok rest /\ (rest = [] \/ seq_nr p < 65535) /\ 0 <= seq_nr p < 65536.
Proof.
  intros [H1 H2]. inversion H1 as [|? ? HS HF]; subst. inversion H2; subst. split; [now split|]. split; [|apply seq_nr_range].
  destruct rest as [|q rest]; [now left|right]. inversion HF; subst. unfold seq_lt in *. pose proof (seq_nr_range q). lia.
Qed.
(** One read of available bytes. *)
Lemma read_one s n : buf_inv (sk s) -> 0 <= s_ack_nr (sk s) -> no_wrap_panic s -> (0 < n)%nat -> available (sk s) <> [] ->
  exists d k', recv_from n s = (Ret (d, s_connected_to (sk s)), mkSt k' (wd s)) /\ d <> [] /\ (length d <= n)%nat /\
    available (sk s) = d ++ available k' /\ buf_inv k' /\ 0 <= s_ack_nr k' /\ no_wrap_panic (mkSt k' (wd s)).
Proof.
  intros HB HA HN Hn HV. exists (fst (flush_sk n (sk s))), (snd (flush_sk n (sk s))).
  assert (HX : fst (flush_sk n (sk s)) <> [] /\ (length (fst (flush_sk n (sk s))) <= n)%nat /\
    available (sk s) = fst (flush_sk n (sk s)) ++ available (snd (flush_sk n (sk s))) /\ buf_inv (snd (flush_sk n (sk s))) /\
    0 <= s_ack_nr (snd (flush_sk n (sk s))) /\ no_wrap_panic (mkSt (snd (flush_sk n (sk s))) (wd s))).
  { unfold flush_sk. unfold available in HV |- *. unfold no_wrap_panic, buf_inv in *. destruct (s_pending_data (sk s)) as [|b0 pend] eqn:EP.
    - destruct (s_incoming_buffer (sk s)) as [|p rest] eqn:EB; [now elim HV|]. cbn [ready_bytes] in HV.
      pose proof (buffer_ok_tail _ _ HB) as (HB1 & HB2 & HB3).
      assert (HPl : payload p = Some (payload_of p)) by (apply buffered_payload; destruct HB as [_ HB]; now inversion HB).
      change ((s_ack_nr (sk s) + 1) mod 65536) with (u16 (s_ack_nr (sk s) + 1)) in *.
      rewrite (Z.eqb_sym (seq_nr p)), (Z.eqb_sym (seq_nr p)) in HV.
      cbn [ready_bytes]. change ((s_ack_nr (sk s) + 1) mod 65536) with (u16 (s_ack_nr (sk s) + 1)).
      rewrite (Z.eqb_sym (seq_nr p)), (Z.eqb_sym (seq_nr p) (u16 _)). destruct (_ || _); [|now elim HV].
      rewrite HPl. cbn [fst snd]. destruct (payload_of p) as [|b1 pl] eqn:EPl; [now elim HV|].
      split; [destruct n; [lia|discriminate]|]. split; [rewrite firstn_length; lia|].
      destruct (fin_or_rest n (b1 :: pl)) as [[-> ->]|(-> & E2 & E3)].
      + unfold advance_socket. rewrite EB. sproj. rewrite EP. split; [reflexivity|]. split; [exact HB1|]. split; [lia|]. cbn [tl]. intuition.
      + sproj. rewrite EB. set (r := skipn _ _) in *. destruct r as [|b2 r]; [congruence|]. split; [rewrite app_assoc; f_equal; symmetry; exact E2|].
        split; [exact HB|]. split; [exact HA|exact HN].
    - cbn [fst snd]. split; [destruct n; [lia|discriminate]|]. split; [rewrite firstn_length; lia|].
      destruct (fin_or_rest n (b0 :: pend)) as [[-> ->]|(-> & E2 & E3)].
      + unfold advance_socket. sproj. destruct (s_incoming_buffer (sk s)) as [|p rest] eqn:EB.
        * sproj. rewrite EB. cbn [ready_bytes]. rewrite app_nil_r. intuition.
        * sproj. pose proof (buffer_ok_tail _ _ HB) as (HB1 & HB2 & HB3). cbn [tl]. split; [destruct rest; reflexivity|]. split; [exact HB1|]. split; [lia|]. intuition.
      + sproj. set (r := skipn _ _) in *. destruct r as [|b2 r]; [congruence|].
        split; [|split; [exact HB|split; [exact HA|exact HN]]].
        destruct (s_incoming_buffer (sk s)); [symmetry; exact E2|]. rewrite app_assoc. f_equal. symmetry. exact E2. }
  split; [|exact HX]. unfold recv_from, bind. rewrite flush_run by auto. unfold get_sk. cbn [sk]. destruct HX as (HD & _).
  destruct (fst (flush_sk n (sk s))) eqn:ED; [congruence|]. cbn [is_nil negb]. unfold ret. now frame.
Qed.
Lemma read_many ns : forall s, buf_inv (sk s) -> 0 <= s_ack_nr (sk s) -> no_wrap_panic s -> Forall (fun n => 0 < n)%nat ns ->
  exists m ds s', (m <= length ns)%nat /\ reads s (firstn m ns) ds s' /\ wd s' = wd s /\ available (sk s) = concat ds ++ available (sk s') /\
    Forall2 (fun n d => (0 < length d <= n)%nat) (firstn m ns) ds /\ (m = length ns \/ available (sk s') = []).
Proof.
  induction ns as [|n ns IH]; intros s HB HA HN HF.
  - exists 0%nat, [], s. cbn. repeat split; auto; constructor.
  - inversion HF; subst. destruct (available (sk s)) as [|b0 a] eqn:EV.
    + exists 0%nat, [], s. cbn. rewrite EV. repeat split; auto; try lia; constructor.
    + assert (HV : available (sk s) <> []) by (rewrite EV; discriminate). rewrite <- EV.
      destruct (read_one s n HB HA HN ltac:(lia) HV) as (d & k' & E & Hd & HL & HC & HB' & HA' & HN').
      destruct (IH (mkSt k' (wd s)) HB' HA' HN' ltac:(assumption)) as (m & ds & s' & Hm & HR & HW & HC' & HF2 & HE).
      exists (S m), (d :: ds), s'. cbn [firstn length concat]. split; [lia|]. split; [econstructor; eauto|]. split; [exact HW|].
      split; [rewrite HC, <- app_assoc; f_equal; exact HC'|]. split; [constructor; [destruct d; [congruence|cbn in *; lia]|exact HF2]|].
      destruct HE; [left; lia|right; assumption].
Qed.
(** Enough reads drain everything. *)
Lemma read_all ns s : buf_inv (sk s) -> 0 <= s_ack_nr (sk s) -> no_wrap_panic s -> Forall (fun n => 0 < n)%nat ns ->
  (length (available (sk s)) <= length ns)%nat ->
  exists m ds s', reads s (firstn m ns) ds s' /\ wd s' = wd s /\ concat ds = available (sk s) /\ available (sk s') = [].
Proof.
  intros HB HA HN HF HL. destruct (read_many ns s HB HA HN HF) as (m & ds & s' & Hm & HR & HW & HC & HF2 & HE).
  assert (HE' : available (sk s') = []).
  { destruct HE as [->|HE]; [|exact HE]. rewrite firstn_all in *. assert (length ds <= length (concat ds))%nat.
    { clear - HF2. induction HF2; [cbn; lia|]. cbn [concat length]. rewrite app_length. lia. }
    assert (length ns = length ds) by (clear - HF2; induction HF2; cbn; congruence). rewrite HC, app_length in HL.
    destruct (available (sk s')); [reflexivity|cbn in HL; lia]. }
  exists m, ds, s'. rewrite HE', app_nil_r in HC. auto.
Qed.

(** ** C56 *)
(** The extensions of the reply to a data or FIN packet. *)
Definition reply_bitmap (orig : packet) (k : socket) : list byte :=
  if 1 <? u16 (seq_nr orig - s_ack_nr k) then match sack_build (s_ack_nr k) [] (s_incoming_buffer k) with Some sack => sack | None => [] end else [].
Lemma attach_sack_exact orig h s : 0 <= s_ack_nr (sk s) < 65535 \/ w_chk (wd s) = false \/ s_incoming_buffer (sk s) = [] ->
  attach_sack orig (wire h [] []) s = (Ret (wire h (match reply_bitmap orig (sk s) with [] => [] | sack => [(x01, sack)] end) []), s).
Proof.
  intros HA. unfold attach_sack, reply_bitmap, bind at 1, get_sk at 1. destruct (1 <? _); [|reflexivity].
  destruct (sack_build_spec (s_ack_nr (sk s)) (s_incoming_buffer (sk s)) [] eq_refl) as (sack & E & HL & _).
  assert (EB : build_selective_ack s = (Ret sack, s)).
  { unfold build_selective_ack, bind, get_sk. rewrite E. destruct (is_nil (s_incoming_buffer (sk s))) eqn:EN; [reflexivity|].
    unfold ck_u16, arith. change (2 ^ 16 - 1) with 65535. destruct (w_chk (wd s)) eqn:EC; cbn [andb].
    - destruct HA as [HA|[HA|HA]]; [|congruence|rewrite HA in EN; discriminate].
      destruct ((0 <=? s_ack_nr (sk s) + 1) && (s_ack_nr (sk s) + 1 <=? 65535)) eqn:ER; [reflexivity|lia].
    - reflexivity. }
  unfold bind. rewrite EB, E. destruct sack as [|b sack]; [reflexivity|]. cbn [is_nil].
  rewrite set_sack_bytes; [reflexivity|apply Forall_nil| |exact HL]. cbn [length] in HL |- *. lia.
Qed.
Lemma reply_bitmap_bits orig k : 0 <= s_ack_nr k < 65535 -> 1 < u16 (seq_nr orig - s_ack_nr k) -> forall i,
  sack_bit (reply_bitmap orig k) i = true <-> exists p, In p (s_incoming_buffer k) /\ seq_nr p = s_ack_nr k + 2 + Z.of_nat i.
Proof.
  intros HA HO i. unfold reply_bitmap. replace (1 <? _) with true by lia.
  destruct (sack_build_spec (s_ack_nr k) (s_incoming_buffer k) [] eq_refl) as (sack & -> & HL & HB & _). rewrite HB.
  assert (sack_bit [] i = false) as -> by (unfold sack_bit; apply nth_overflow; cbn; lia). unfold covers. split.
  - intros [|(p & Hp & H1 & H2)]; [discriminate|]. exists p. split; [exact Hp|]. pose proof (seq_nr_range p).
    rewrite (u16_small (s_ack_nr k + 1)) in H1 by lia. rewrite u16_small in H2 by lia. lia.
  - intros (p & Hp & H2). right. exists p. pose proof (seq_nr_range p). rewrite !u16_small by lia. split; [exact Hp|]. lia.
Qed.
Lemma reply_bitmap_short orig k : 0 <= s_ack_nr k < 65535 -> (forall p, In p (s_incoming_buffer k) -> seq_nr p < s_ack_nr k + 2018) ->
  (length (reply_bitmap orig k) <= 252 /\ length (reply_bitmap orig k) mod 4 = 0)%nat.
Proof.
  intros HA H. unfold reply_bitmap. destruct (1 <? _); [|cbn; lia].
  destruct (sack_build_spec (s_ack_nr k) (s_incoming_buffer k) [] eq_refl) as (sack & -> & HL & _ & HM & _). split; [|exact HL].
  apply HM; [cbn; lia|reflexivity|]. intros p Hp. pose proof (seq_nr_range p). specialize (H p Hp). rewrite (u16_small (s_ack_nr k + 1)) by lia.
  destruct (Z.le_gt_cases (seq_nr p) (s_ack_nr k + 1)); [now right|left]. rewrite u16_small by lia. lia.
Qed.
Lemma data_reply_exact p s : 0 <= s_ack_nr (sk s) < 65535 -> exists h,
  handle_data_packet p s = (Ret (Some (wire h (match reply_bitmap p (sk s) with [] => [] | sack => [(x01, sack)] end) [])), ticked s) /\
  h_ack h = s_ack_nr (sk s).
Proof.
  intros HA. unfold handle_data_packet, bind at 1, get_sk. cbv zeta. set (t := if sstate_eqb _ _ then _ else _).
  pose proof (prepare_reply_wire p t s) as H. unfold wp in H. unfold bind at 1. destruct (prepare_reply p t s) as [o s']. cbn [fst snd] in H.
  destruct H as (-> & tsd & -> & _). unfold bind. rewrite attach_sack_exact by (left; exact HA). unfold ret. eexists. split; [reflexivity|reflexivity].
Qed.
(** The reply a peer reads: the announced numbers are exactly the buffered ones beyond the next expected. *)
Lemma data_reply_announces p s : 0 <= s_ack_nr (sk s) < 65535 ->
  (forall q, In q (s_incoming_buffer (sk s)) -> seq_nr q < s_ack_nr (sk s) + 2018) ->
  exists r s' exts, handle_data_packet p s = (Ret (Some r), s') /\ sk s' = sk s /\ valid r /\ ack_nr r = s_ack_nr (sk s) /\ extensions r = Some exts /\
    (u16 (seq_nr p - s_ack_nr (sk s)) <= 1 -> exts = []) /\
    (1 < u16 (seq_nr p - s_ack_nr (sk s)) ->
      (exts = [] /\ forall q, In q (s_incoming_buffer (sk s)) -> seq_nr q <= s_ack_nr (sk s) + 1) \/
      (exists data, exts = [mkExt ESack data] /\
        forall i, nth i (bit_string data) false = true <-> exists q, In q (s_incoming_buffer (sk s)) /\ seq_nr q = s_ack_nr (sk s) + 2 + Z.of_nat i)).
Proof.
  intros HA HG. destruct (data_reply_exact p s HA) as (h & E & Hh). destruct (reply_bitmap_short p (sk s) HA HG) as [HS1 HS2].
  set (bm := reply_bitmap p (sk s)) in *. set (exts := match bm with [] => [] | _ :: _ => _ end) in E.
  assert (HW : Forall wf_ext exts).
  { subst exts. destruct bm as [|b bm']; constructor; [|constructor]. split; [discriminate|]. cbn [snd] in *. unfold zlen. cbn [length] in *. lia. }
  do 2 eexists. exists (map ext_view exts). split; [exact E|]. split; [reflexivity|]. split; [now apply wire_valid|].
  split; [rewrite ack_wire, Hh; apply u16_small; lia|]. split; [now apply extensions_wire|]. split.
  - intros HO. subst exts bm. unfold reply_bitmap. now replace (1 <? _) with false by lia.
  - intros HO. pose proof (reply_bitmap_bits p (sk s) HA HO) as HB. fold bm in HB. destruct bm as [|b bm'] eqn:EM.
    + left. split; [reflexivity|]. intros q Hq. destruct (Z.le_gt_cases (seq_nr q) (s_ack_nr (sk s) + 1)) as [|L]; [assumption|exfalso].
      destruct (HB (Z.to_nat (seq_nr q - s_ack_nr (sk s) - 2))) as [_ HB']. rewrite sack_bit_spec in HB'.
      assert (HX : Z.testbit (b2z (nth (Z.to_nat (seq_nr q - s_ack_nr (sk s) - 2) / 8) [] x00)) (Z.of_nat (Z.to_nat (seq_nr q - s_ack_nr (sk s) - 2) mod 8)) = true)
        by (apply HB'; exists q; split; [exact Hq|lia]).
      rewrite nth_overflow in HX by (cbn; lia). change (b2z x00) with 0 in HX. now rewrite Z.bits_0 in HX.
    + right. exists (b :: bm'). split; [reflexivity|]. exact HB.
Qed.
