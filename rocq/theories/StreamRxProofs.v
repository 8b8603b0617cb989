(** The receiving side as a stream: what a socket that only reads hands out (properties C18, C19). *)
From Verif Require Export SpecStream RecvProofs Samples.
Require Import ZifyBool ZifyNat ZifyN.
Local Open Scope Z_scope.
Ltac Zify.zify_post_hook ::= Z.div_mod_to_equations.

Lemma firstn_next (chunks : list (list byte)) d c : nth_error chunks d = Some c -> concat (firstn (S d) chunks) = concat (firstn d chunks) ++ c.
Proof.
  revert d. induction chunks as [|x l IH]; intros [|d]; cbn [nth_error]; try discriminate.
  - intros [= ->]. cbn. now rewrite app_nil_r.
  - intros H. cbn [firstn concat] in *. rewrite (IH d H). now rewrite app_assoc.
Qed.
Lemma sorted_head p rest q : StronglySorted seq_lt (p :: rest) -> In q (p :: rest) -> seq_nr p <= seq_nr q.
Proof.
  intros H [ <- |Hq]; [lia|]. apply StronglySorted_inv in H as [_ H]. rewrite Forall_forall in H. specialize (H q Hq). unfold seq_lt in H. lia.
Qed.

Lemma firstn_all_or {A} n (l : list A) : (length (firstn n l) =? length l)%nat = true -> firstn n l = l.
Proof. intros H. rewrite firstn_length in H. apply firstn_all2. lia. Qed.

Section Rx.
  Variables (a : Z) (chunks : list (list byte)) (i1 i2 : Z).
  Hypothesis Ha : 0 <= a.
  Hypothesis HN : a + Z.of_nat (length chunks) + 1 < 65535.
  Hypothesis Hne : Forall (fun c => c <> []) chunks.
  Notation N := (length chunks).
  Notation carries := (carries a chunks).
  Notation brings := (brings a chunks).
  Notation arrived := (arrived a chunks).
  Notation duplicated := (duplicated a chunks).

  Lemma carries_lt p j : carries p j -> (j < N)%nat.
  Proof. intros (_ & _ & c & H & _). apply nth_error_Some. congruence. Qed.
  Lemma carries_seq p j : carries p j -> seq_nr p = a + 1 + Z.of_nat j.
  Proof. intros H. pose proof (carries_lt p j H). destruct H as (_ & -> & _). apply Z.mod_small. lia. Qed.
  Lemma delivers_fun e p q : delivers e p -> delivers e q -> p = q.
  Proof. intros (d & src & E & H) (d' & src' & E' & H'). subst e. injection E' as -> ->. congruence. Qed.
  Lemma brings_fun e p j j' : delivers e p -> carries p j -> brings e j' -> j' = j.
  Proof.
    intros HD HC (q & HQ & HC'). rewrite (delivers_fun e q p HQ HD) in HC'. apply carries_seq in HC. apply carries_seq in HC'. lia.
  Qed.
  Lemma no_bring e p j : delivers e p -> get_type p <> Some PData -> ~ brings e j.
  Proof. intros HD HT (q & HQ & HC & _). rewrite (delivers_fun e q p HQ HD) in HC. congruence. Qed.
  Lemma arrived_snoc es e j : arrived (es ++ [e]) j <-> arrived es j \/ brings e j.
  Proof.
    split.
    - intros (x & Hx & HB). apply in_app_or in Hx as [Hx|[ <- |[]]]; [left; exists x; auto|now right].
    - intros [(x & Hx & HB)|HB]; [exists x|exists e]; split; auto; apply in_or_app; cbn; auto.
  Qed.
  Lemma duplicated_snoc es e : duplicated es -> duplicated (es ++ [e]).
  Proof. intros (l1 & e1 & l2 & e2 & l3 & j & -> & H). exists l1, e1, l2, e2, (l3 ++ [e]), j. split; [|exact H]. rewrite <- !app_assoc. cbn. now rewrite <- app_assoc. Qed.
  Lemma arrived_again es e j : arrived es j -> brings e j -> duplicated (es ++ [e]).
  Proof.
    intros (x & Hx & HB) HE. apply in_split in Hx as (l1 & l2 & ->). exists l1, x, l2, e, [], j. split; [|auto]. now rewrite <- app_assoc.
  Qed.

  (** *** The state of the reader after [es] have arrived and [out] has been handed out *)
  Definition pieces (k : socket) : Prop :=
    StronglySorted seq_lt (s_incoming_buffer k) /\ Forall (fun p => exists j, carries p j) (s_incoming_buffer k).
  Definition holds (k : socket) (j : nat) : Prop := exists p, In p (s_incoming_buffer k) /\ carries p j.
  Definition clean (es : list rx) (d : nat) (k : socket) : Prop :=
    (forall j, arrived es j <-> (j < d)%nat \/ holds k j) /\ (forall j, holds k j -> (d <= j)%nat).
  Definition head_is (z : Z) (k : socket) : Prop := exists p rest, s_incoming_buffer k = p :: rest /\ seq_nr p = z.
  (** An old packet is at the head: nothing will ever be handed out again. *)
  Definition jammed (es : list rx) (d : nat) (k : socket) : Prop :=
    duplicated es /\ (exists p rest, s_incoming_buffer k = p :: rest /\ seq_nr p < a + Z.of_nat d) /\
    a + Z.of_nat d <= s_ack_nr k <= a + Z.of_nat N + 1.
  Definition idle (es : list rx) (d : nat) (k : socket) : Prop :=
    clean es d k /\ (s_ack_nr k = a + Z.of_nat d \/ s_ack_nr k = a + Z.of_nat d + 1 /\ head_is (a + Z.of_nat d + 1) k \/ s_ack_nr k = a + Z.of_nat N + 1 /\ d = N).
  Definition partway (es : list rx) (d : nat) (pre : list byte) (k : socket) : Prop :=
    clean es d k /\ (s_ack_nr k = a + Z.of_nat d \/ s_ack_nr k = a + Z.of_nat d + 1) /\ head_is (a + Z.of_nat d + 1) k /\
    nth_error chunks d = Some (pre ++ s_pending_data k) /\ s_pending_data k <> [].
  Definition view (es : list rx) (out : list byte) (k : socket) : Prop :=
    pieces k /\ exists d, (d <= N)%nat /\ s_last_dropped k = a + Z.of_nat d /\
      ((s_pending_data k = [] /\ out = concat (firstn d chunks) /\ (idle es d k \/ jammed es d k)) \/
       (exists pre, out = concat (firstn d chunks) ++ pre /\ partway es d pre k)).

  Lemma view_prefix es out k : view es out k -> exists rest, concat chunks = out ++ rest.
  Proof.
    assert (HH : forall d, concat chunks = concat (firstn d chunks) ++ concat (skipn d chunks)) by (intros d; now rewrite <- concat_app, firstn_skipn).
    intros (_ & d & Hd & _ & [(_ & -> & _)|(pre & -> & _ & _ & _ & HC & _)]); [exists (concat (skipn d chunks)); apply HH|].
    exists (s_pending_data k ++ concat (skipn (S d) chunks)). rewrite (HH (S d)), (firstn_next chunks d _ HC). now rewrite <- !app_assoc.
  Qed.

  Lemma holds_pop p rest k k' j : pieces k -> s_incoming_buffer k = p :: rest -> carries p j -> s_incoming_buffer k' = rest ->
    pieces k' /\ (forall i, holds k i <-> i = j \/ holds k' i) /\ (forall i, holds k' i -> (j < i)%nat).
  Proof.
    intros [HS HF] EB HC EB'. rewrite EB in HS, HF. unfold pieces, holds. rewrite EB, EB'. apply StronglySorted_inv in HS as [HS1 HS2]. split; [split; [exact HS1|now inversion HF]|]. split.
    - intros i. split.
      + intros (q & [ <- |Hq] & HQ); [left; apply carries_seq in HQ, HC; lia|right; eauto].
      + intros [ -> |(q & Hq & HQ)]; [exists p|exists q]; cbn; auto.
    - intros i (q & Hq & HQ). rewrite Forall_forall in HS2. specialize (HS2 q Hq). unfold seq_lt in HS2. apply carries_seq in HQ, HC. lia.
  Qed.
  Lemma clean_pop es d p rest k k' : pieces k -> clean es d k -> s_incoming_buffer k = p :: rest -> carries p d -> s_incoming_buffer k' = rest ->
    pieces k' /\ clean es (S d) k'.
  Proof.
    intros HP [HC1 HC2] EB HC EB'. destruct (holds_pop p rest k k' d HP EB HC EB') as (HP' & HH & HL). split; [exact HP'|]. split.
    - intros j. rewrite HC1, HH. intuition lia.
    - intros j Hj. apply HL in Hj. lia.
  Qed.
  Lemma head_carries z k : pieces k -> head_is z k -> exists p rest j, s_incoming_buffer k = p :: rest /\ carries p j /\ z = a + 1 + Z.of_nat j.
  Proof.
    intros [_ HF] (p & rest & EB & E). rewrite EB in HF. inversion HF as [|? ? (j & Hj) _]; subst. exists p, rest, j. split; [exact EB|]. split; [exact Hj|]. now apply carries_seq.
  Qed.

  Lemma view_pop es out d p rest k k' : pieces k -> (d <= N)%nat -> clean es d k -> s_incoming_buffer k = p :: rest -> carries p d ->
    s_incoming_buffer k' = rest -> s_ack_nr k' = seq_nr p -> s_last_dropped k' = seq_nr p -> s_pending_data k' = [] ->
    out = concat (firstn (S d) chunks) -> view es out k'.
  Proof.
    intros HP Hd HC EB Hc E1 E2 E3 E4 ->. destruct (clean_pop es d p rest k k' HP HC EB Hc E1) as [HP' HC']. split; [exact HP'|]. exists (S d).
    pose proof (carries_lt p d Hc). pose proof (carries_seq p d Hc). split; [lia|]. split; [lia|]. left. split; [exact E4|]. split; [reflexivity|]. left. split; [exact HC'|]. left. lia.
  Qed.

  Lemma view_flush es out n k : (0 < n)%nat -> view es out k ->
    view es (out ++ fst (flush_sk n k)) (snd (flush_sk n k)) /\ (fst (flush_sk n k) = [] -> drained (snd (flush_sk n k))).
  Proof.
    intros Hn (HP & d & Hd & HL & [(EP & -> & HI)|(pre & -> & HC & HA & HH & HX & HE)]).
    - unfold flush_sk. rewrite EP. destruct (s_incoming_buffer k) as [|p rest] eqn:EB.
      { cbn [fst snd]. rewrite app_nil_r. split; [split; [exact HP|exists d; auto 10]|]. intros _. split; [exact EP|]. now rewrite EB. }
      assert (HJ : exists j, carries p j). { destruct HP as [_ HF]. rewrite EB in HF. now inversion HF. }
      destruct HJ as [j Hj]. pose proof (carries_seq p j Hj) as Sj. pose proof (carries_lt p j Hj) as Lj.
      destruct HI as [[HC HA]|(HU & (p' & rest' & EB' & HQ) & HA)].
      + assert (Dj : (d <= j)%nat). { apply (proj2 HC). exists p. rewrite EB. cbn. auto. }
        destruct ((s_ack_nr k =? seq_nr p) || (u16 (s_ack_nr k + 1) =? seq_nr p)) eqn:ER.
        * assert (j = d). { rewrite u16_eq in ER. destruct HA as [HA|[[HA (p0 & rest0 & E0 & E1)]|[HA HA2]]]; [lia| |lia]. rewrite EB in E0. injection E0 as <- <-. lia. }
          subst j. destruct (Hj) as (_ & _ & c & Ec & Pc). rewrite Pc. cbv zeta. cbn [fst snd].
          assert (Hc : c <> []) by (rewrite Forall_forall in Hne; apply Hne; eapply nth_error_In; exact Ec).
          split; [|intros E; exfalso; destruct c; [congruence|]; destruct n; [lia|discriminate]].
          destruct (_ =? _)%nat eqn:EQ.
          -- rewrite (firstn_all_or n c EQ). eapply (view_pop es _ d p rest k); try eassumption.
             all: try (unfold advance_socket; rewrite EB; reflexivity).
             ++ unfold advance_socket. rewrite EB. exact EP.
             ++ symmetry. now apply firstn_next.
          -- split; [exact HP|]. exists d. split; [exact Hd|]. split; [exact HL|]. right. exists (firstn n c). split; [reflexivity|].
             assert (HLen : (length (firstn n c) = n)%nat). { rewrite firstn_length in EQ |- *. lia. }
             split; [exact HC|]. split; [sproj; destruct HA as [HA|[[HA _]|[HA HA2]]]; lia|].
             split; [exists p, rest; split; [exact EB|lia]|]. sproj. rewrite HLen. rewrite firstn_skipn. split; [exact Ec|].
             intros E. apply (f_equal (@length byte)) in E. rewrite skipn_length in E. rewrite firstn_length in EQ. cbn in E. lia.
        * cbn [fst snd]. rewrite app_nil_r. split; [split; [exact HP|]; exists d; split; [exact Hd|]; split; [exact HL|]; left; split; [exact EP|]; split; [reflexivity|]; left; split; assumption|].
          intros _. split; [exact EP|]. rewrite EB. rewrite u16_eq in ER. lia.
      + rewrite EB' in EB. injection EB as <- <-.
        destruct ((s_ack_nr k =? seq_nr p') || (u16 (s_ack_nr k + 1) =? seq_nr p')) eqn:ER.
        * exfalso. rewrite u16_eq in ER. lia.
        * cbn [fst snd]. rewrite app_nil_r. split; [split; [exact HP|]; exists d; split; [exact Hd|]; split; [exact HL|]; left; split; [exact EP|]; split; [reflexivity|]; right|].
          { split; [exact HU|]. split; [exists p', rest'; auto|exact HA]. }
          intros _. split; [exact EP|]. rewrite EB'. rewrite u16_eq in ER. lia.
    - unfold flush_sk. destruct (s_pending_data k) as [|b0 pend] eqn:EP; [congruence|]. cbv zeta. cbn [fst snd].
      split; [|intros E; exfalso; destruct n; [lia|discriminate]].
      destruct (head_carries _ _ HP HH) as (p & rest & j & EB & Hj & Ej). assert (j = d) by lia. subst j.
      destruct (_ =? _)%nat eqn:EQ.
      + rewrite (firstn_all_or n _ EQ). eapply (view_pop es _ d p rest k); try eassumption.
        all: try (unfold advance_socket; sproj; rewrite EB; sproj; reflexivity).
        rewrite <- app_assoc. symmetry. now apply firstn_next.
      + split; [exact HP|]. exists d. split; [exact Hd|]. split; [exact HL|]. right. exists (pre ++ firstn n (b0 :: pend)). split; [now rewrite app_assoc|].
        split; [exact HC|]. split; [exact HA|]. split; [exact HH|]. sproj.
        assert (HLen : (length (firstn n (b0 :: pend)) = n)%nat). { rewrite firstn_length in EQ |- *. lia. }
        rewrite HLen. rewrite <- app_assoc, firstn_skipn. split; [exact HX|].
        intros E. apply (f_equal (@length byte)) in E. rewrite skipn_length in E. rewrite firstn_length in EQ. cbn [length] in *. lia.
  Qed.

  (** *** Arrivals *)
  Definition stored (p : packet) (k : socket) : socket :=
    if 0 <? u16 (seq_nr p - s_last_dropped k) then ss_incoming_buffer (insert_packet p (s_incoming_buffer k)) (acked_sk p k) else acked_sk p k.

  Lemma view_skip es out k e : (forall j, ~ brings e j) -> view es out k -> view (es ++ [e]) out k.
  Proof.
    intros HB (HP & d & Hd & HL & HV).
    assert (HC : clean es d k -> clean (es ++ [e]) d k). { intros [H1 H2]. split; [|exact H2]. intros j. rewrite arrived_snoc, H1. specialize (HB j). tauto. }
    split; [exact HP|]. exists d. split; [exact Hd|]. split; [exact HL|]. destruct HV as [(E & -> & [[H1 H2]|(H1 & H2)])|(pre & -> & H1 & H2)].
    - left. split; [exact E|]. split; [reflexivity|]. left. split; auto.
    - left. split; [exact E|]. split; [reflexivity|]. right. split; [now apply duplicated_snoc|exact H2].
    - right. exists pre. split; [reflexivity|]. split; auto.
  Qed.
  Lemma pieces_insert p j k k' : pieces k -> carries p j -> s_incoming_buffer k' = insert_packet p (s_incoming_buffer k) ->
    pieces k' /\ (forall i, holds k' i <-> i = j \/ holds k i).
  Proof.
    intros [HS HF] HC E. destruct (insert_spec p _ HS) as [I1 I2].
    assert (HD : (exists q, In q (s_incoming_buffer k) /\ seq_nr q = seq_nr p) \/ ~ (exists q, In q (s_incoming_buffer k) /\ seq_nr q = seq_nr p)).
    { destruct (existsb (fun q => seq_nr q =? seq_nr p) (s_incoming_buffer k)) eqn:EX; [left|right].
      - apply existsb_exists in EX as (q & Hq & Eq). exists q. split; [exact Hq|lia].
      - intros (q & Hq & Eq). rewrite <- not_true_iff_false in EX. apply EX. apply existsb_exists. exists q. split; [exact Hq|lia]. }
    unfold pieces, holds. rewrite E. destruct HD as [HD|HD].
    - rewrite (I1 HD). split; [split; assumption|]. intros i. split; [tauto|]. intros [ -> |H]; [|exact H]. destruct HD as (q & Hq & Eq). exists q. split; [exact Hq|].
      rewrite Forall_forall in HF. destruct (HF q Hq) as [j' Hj']. pose proof (carries_seq _ _ Hj'). pose proof (carries_seq _ _ HC). replace j with j' by lia. exact Hj'.
    - split; [split; [now apply insert_sorted|]|].
      + eapply Permutation_Forall; [apply I2, HD|]. constructor; eauto.
      + intros i. split.
        * intros (q & Hq & Hi). apply (Permutation_in _ (Permutation_sym (I2 HD))) in Hq as [ <- |Hq]; [left|right; eauto]. pose proof (carries_seq _ _ Hi). pose proof (carries_seq _ _ HC). lia.
        * intros [ -> |(q & Hq & Hi)]; [exists p|exists q]; (split; [apply (Permutation_in _ (I2 HD)); cbn; auto|assumption]).
  Qed.
  Lemma head_min k k' p rest : s_incoming_buffer k = p :: rest -> pieces k' -> (forall j, holds k j -> holds k' j) -> pieces k ->
    exists p' rest', s_incoming_buffer k' = p' :: rest' /\ seq_nr p' <= seq_nr p.
  Proof.
    intros EB [HS' _] HH [_ HF]. rewrite EB in HF. inversion HF as [|? ? (j & Hj) _]; subst. destruct (HH j) as (q & Hq & HQ); [exists p; rewrite EB; cbn; auto|].
    destruct (s_incoming_buffer k') as [|p' rest'] eqn:E; [destruct Hq|]. exists p', rest'. split; [reflexivity|].
    pose proof (sorted_head _ _ _ HS' Hq). pose proof (carries_seq _ _ Hj). pose proof (carries_seq _ _ HQ). lia.
  Qed.
  Lemma acked_keep p k : u16 (seq_nr p - s_ack_nr k) <> 1 -> acked_sk p k = k.
  Proof. intros H. unfold acked_sk. replace (_ =? 1) with false by lia. reflexivity. Qed.
  Lemma acked_bump p k : u16 (seq_nr p - s_ack_nr k) = 1 -> acked_sk p k = ss_ack_nr (seq_nr p) k.
  Proof. intros H. unfold acked_sk. replace (_ =? 1) with true by lia. reflexivity. Qed.

  Lemma drained_idle es d k : pieces k -> idle es d k -> drained k ->
    (s_ack_nr k = a + Z.of_nat d /\ ~ holds k d) \/ (s_ack_nr k = a + Z.of_nat N + 1 /\ d = N).
  Proof.
    intros HP [HC HA] [_ HD]. destruct HA as [HA|[[HA HH]|HA]]; [left|exfalso|now right].
    - split; [exact HA|]. intros (p & Hp & Hc). pose proof (carries_seq _ _ Hc). pose proof (carries_lt _ _ Hc). destruct (s_incoming_buffer k) as [|q rest] eqn:EB; [destruct Hp|].
      assert (HJ : exists j, carries q j) by (destruct HP as [_ HF]; rewrite EB in HF; now inversion HF). destruct HJ as [j Hj].
      assert ((d <= j)%nat) by (apply (proj2 HC); exists q; rewrite EB; cbn; auto). pose proof (carries_seq _ _ Hj).
      assert (seq_nr q <= seq_nr p) by (destruct HP as [HS _]; rewrite EB in HS; now apply (sorted_head q rest)). lia.
    - destruct HH as (p & rest & EB & E). rewrite EB in HD. lia.
  Qed.

  Lemma view_data es out k e p j : view es out k -> drained k -> delivers e p -> carries p j -> view (es ++ [e]) out (stored p k).
  Proof.
    intros (HP & d & Hd & HL & HV) HD He Hj. pose proof (carries_seq _ _ Hj) as Sj. pose proof (carries_lt _ _ Hj) as Lj.
    assert (HB : brings e j) by (exists p; auto).
    assert (HB' : forall j', brings e j' -> j' = j) by (intros j'; apply (brings_fun e p); assumption).
    assert (HAr : forall i, arrived (es ++ [e]) i <-> arrived es i \/ i = j). { intros i. rewrite arrived_snoc. split; intros [H|H]; auto. right. now subst. }
    destruct HV as [(EP & -> & HV)|(pre & -> & _ & _ & _ & _ & HX)]; [|destruct HD; congruence].
    set (k2 := ss_incoming_buffer (insert_packet p (s_incoming_buffer k)) (acked_sk p k)).
    destruct (pieces_insert p j k k2 HP Hj eq_refl) as [HP2 HH2].
    assert (E2 : s_pending_data k2 = [] /\ s_last_dropped k2 = a + Z.of_nat d).
    { unfold k2. sproj. rewrite (acked_other s_pending_data), (acked_other s_last_dropped) by reflexivity. auto. }
    destruct HV as [HI|HJ].
    - destruct (drained_idle es d k HP HI HD) as [[HA HX]|[HA HX]]; destruct HI as [HC _].
      + destruct (Nat.lt_trichotomy j d) as [Hjd|[Hjd|Hjd]].
        * assert (HR : arrived es j) by (apply (proj1 HC); auto).
          assert (EK : acked_sk p k = k) by (apply acked_keep; rewrite u16_eq; lia).
          unfold stored. rewrite EK, u16_eq. destruct (Nat.eq_dec (S j) d) as [HS|HS].
          -- replace (0 <? _) with false by lia. split; [exact HP|]. exists d. split; [exact Hd|]. split; [exact HL|]. left. split; [exact EP|]. split; [reflexivity|]. left. split; [|left; exact HA].
             split; [|apply (proj2 HC)]. intros i. rewrite HAr, <- (proj1 HC i). split; [intros [H|H]; subst; auto|auto].
          -- replace (0 <? _) with true by lia. fold k2 in HP2. unfold k2 in *. rewrite EK in *. clear k2. set (k2 := ss_incoming_buffer _ k) in *.
             split; [exact HP2|]. exists d. split; [exact Hd|]. split; [exact HL|]. left. split; [exact EP|]. split; [reflexivity|]. right.
             split; [now apply (arrived_again es e j)|]. split; [|change (s_ack_nr k2) with (s_ack_nr k); lia].
             assert (HHj : holds k2 j) by (apply HH2; auto). destruct HHj as (q & Hq & Hqj). destruct (s_incoming_buffer k2) as [|p' rest'] eqn:E'; [destruct Hq|].
             exists p', rest'. split; [reflexivity|]. assert (seq_nr p' <= seq_nr q) by (destruct HP2 as [HS2 _]; rewrite E' in HS2; now apply (sorted_head p' rest')).
             pose proof (carries_seq _ _ Hqj). lia.
        * subst j. assert (EK : acked_sk p k = ss_ack_nr (seq_nr p) k) by (apply acked_bump; rewrite u16_eq; lia).
          unfold stored. rewrite u16_eq. replace (0 <? _) with true by lia. fold k2.
          assert (HC2 : clean (es ++ [e]) d k2).
          { split; [intros i; rewrite HAr, (proj1 HC i), HH2; tauto|]. intros i Hi. apply HH2 in Hi as [ -> |Hi]; [lia|now apply (proj2 HC)]. }
          split; [exact HP2|]. exists d. split; [exact Hd|]. split; [apply E2|]. left. split; [apply E2|]. split; [reflexivity|]. left. split; [exact HC2|].
          right. left. split; [unfold k2; rewrite EK; sproj; lia|].
          assert (HHj : holds k2 d) by (apply HH2; auto). destruct HHj as (q & Hq & Hqj). destruct (s_incoming_buffer k2) as [|p' rest'] eqn:E'; [destruct Hq|].
          exists p', rest'. split; [exact E'|]. assert (seq_nr p' <= seq_nr q) by (destruct HP2 as [HS2 _]; rewrite E' in HS2; now apply (sorted_head p' rest')).
          assert (HJ : exists i, carries p' i) by (destruct HP2 as [_ HF]; rewrite E' in HF; now inversion HF). destruct HJ as [i Hi].
          assert ((d <= i)%nat) by (apply (proj2 HC2); exists p'; rewrite E'; cbn; auto). pose proof (carries_seq _ _ Hqj). pose proof (carries_seq _ _ Hi). lia.
        * assert (EK : acked_sk p k = k) by (apply acked_keep; rewrite u16_eq; lia).
          unfold stored. rewrite u16_eq. replace (0 <? _) with true by lia. fold k2.
          split; [exact HP2|]. exists d. split; [exact Hd|]. split; [apply E2|]. left. split; [apply E2|]. split; [reflexivity|]. left. split.
          { split; [intros i; rewrite HAr, (proj1 HC i), HH2; tauto|]. intros i Hi. apply HH2 in Hi as [ -> |Hi]; [lia|now apply (proj2 HC)]. }
          left. unfold k2. rewrite EK. exact HA.
      + subst d. assert (HR : arrived es j) by (apply (proj1 HC); auto).
        assert (EK : acked_sk p k = k) by (apply acked_keep; rewrite u16_eq; lia).
        unfold stored. rewrite EK, u16_eq. destruct (Nat.eq_dec (S j) N) as [HS|HS].
        * replace (0 <? _) with false by lia. split; [exact HP|]. exists N. split; [exact Hd|]. split; [exact HL|]. left. split; [exact EP|]. split; [reflexivity|]. left. split; [|right; right; auto].
          split; [|apply (proj2 HC)]. intros i. rewrite HAr, <- (proj1 HC i). split; [intros [H|H]; subst; auto|auto].
        * replace (0 <? _) with true by lia. unfold k2 in *. rewrite EK in *. clear k2. set (k2 := ss_incoming_buffer _ k) in *.
          split; [exact HP2|]. exists N. split; [exact Hd|]. split; [exact HL|]. left. split; [exact EP|]. split; [reflexivity|]. right.
          split; [now apply (arrived_again es e j)|]. split; [|change (s_ack_nr k2) with (s_ack_nr k); lia].
          assert (HHj : holds k2 j) by (apply HH2; auto). destruct HHj as (q & Hq & Hqj). destruct (s_incoming_buffer k2) as [|p' rest'] eqn:E'; [destruct Hq|].
          exists p', rest'. split; [reflexivity|]. assert (seq_nr p' <= seq_nr q) by (destruct HP2 as [HS2 _]; rewrite E' in HS2; now apply (sorted_head p' rest')).
          pose proof (carries_seq _ _ Hqj). lia.
    - destruct HJ as (HU & (p0 & rest0 & EB & H0) & HA).
      assert (HA' : a + Z.of_nat d <= s_ack_nr (acked_sk p k) <= a + Z.of_nat N + 1).
      { destruct (acked_cases p k) as [ -> |[ -> HQ]]; [exact HA|]. sproj. rewrite u16_eq in HQ. lia. }
      assert (HG : forall k3, pieces k3 -> (forall i, holds k i -> holds k3 i) -> s_ack_nr k3 = s_ack_nr (acked_sk p k) -> s_last_dropped k3 = s_last_dropped k -> s_pending_data k3 = [] ->
        view (es ++ [e]) (concat (firstn d chunks)) k3).
      { intros k3 HP3 HH3 EA3 EL3 EP3. split; [exact HP3|]. exists d. split; [exact Hd|]. split; [congruence|]. left. split; [exact EP3|]. split; [reflexivity|]. right.
        split; [now apply duplicated_snoc|]. split; [|rewrite EA3; exact HA']. destruct (head_min k k3 p0 rest0 EB HP3 HH3 HP) as (p' & rest' & E' & Le). exists p', rest'. split; [exact E'|lia]. }
      unfold stored. destruct (0 <? _).
      + apply HG; [exact HP2|intros i Hi; apply HH2; auto|reflexivity|rewrite HL; apply E2|apply E2].
      + apply HG; rewrite ?(acked_other s_last_dropped), ?(acked_other s_pending_data) by reflexivity; auto.
        * unfold pieces. now rewrite (acked_other s_incoming_buffer) by reflexivity.
        * unfold holds. now rewrite (acked_other s_incoming_buffer) by reflexivity.
  Qed.
  Lemma view_fields es out k k' : s_incoming_buffer k' = s_incoming_buffer k -> s_ack_nr k' = s_ack_nr k -> s_last_dropped k' = s_last_dropped k ->
    s_pending_data k' = s_pending_data k -> view es out k -> view es out k'.
  Proof.
    intros E1 E2 E3 E4. unfold view, pieces, idle, jammed, partway, clean, holds, head_is. now rewrite E1, E2, E3, E4.
  Qed.
  Lemma view_fin es out k p : view es out k -> drained k -> ends a chunks p -> view es out (acked_sk p k).
  Proof.
    intros (HP & d & Hd & HL & HV) HD [_ HE]. rewrite Z.mod_small in HE by lia.
    destruct HV as [(EP & -> & HV)|(pre & -> & _ & _ & _ & _ & HX)]; [|destruct HD; congruence].
    destruct (acked_cases p k) as [ -> |[ -> HQ]]; [split; [exact HP|]; exists d; auto 10|]. rewrite u16_eq, HE in HQ.
    split; [exact HP|]. exists d. split; [exact Hd|]. split; [exact HL|]. left. split; [exact EP|]. split; [reflexivity|]. destruct HV as [HI|(HU & HB & HA)].
    - left. destruct (drained_idle es d k HP HI HD) as [[HA HX]|[HA HX]]; split; try apply HI; right; right; sproj; lia.
    - right. split; [exact HU|]. split; [exact HB|]. sproj. lia.
  Qed.
  Lemma view_ack es out k : view es out k -> a <= s_ack_nr k <= a + Z.of_nat N + 1.
  Proof.
    intros (_ & d & Hd & _ & [(_ & _ & [[_ HA]|(_ & _ & HA)])|(pre & _ & _ & HA & (p & rest & EB & E) & HX & _)]); [|lia|].
    - destruct HA as [HA|[[HA (p & rest & EB & E)]|HA]]; lia.
    - assert ((d < N)%nat) by (apply nth_error_Some; congruence). lia.
  Qed.
  Lemma view_syn es out k p : view es out k -> opens a p -> acked_sk p k = k.
  Proof. intros HV [_ HE]. apply view_ack in HV. rewrite Z.mod_small in HE by lia. apply acked_keep. rewrite u16_eq, HE. lia. Qed.

  (** *** Calls *)
  Variable all : list rx.
  Hypothesis Hall : Forall (from_stream a chunks i1 i2) all.
  (** [es] have been consumed. *)
  Definition base (es : list rx) (out : list byte) (s : st) : Prop :=
    view es out (sk s) /\ s_sender_connection_id (sk s) = i1 /\ s_receiver_connection_id (sk s) = i2 /\ s_send_window (sk s) = [] /\
    (s_state (sk s) = Connected \/ s_state (sk s) = Closed) /\ all_sends_succeed s.
  Definition inv (out : list byte) (s : st) : Prop := exists es, all = es ++ w_in (wd s) /\ base es out s.
  Definition waiting (out : list byte) (s : st) : Prop := inv out s /\ drained (sk s) /\ s_state (sk s) = Connected.
  (** how a call may end *)
  Definition ended (out : list byte) (o : outcome (list byte * addr)) (s : st) : Prop :=
    match o with
    | Ret (data, _) => inv (out ++ data) s /\ (data = [] -> drained (sk s))
    | Fail (Panic _) => True
    | Fail _ => inv out s /\ drained (sk s)
    end.

  Lemma inv_same out s s' : inv out s -> sk s' = sk s -> w_in (wd s') = w_in (wd s) -> w_send (wd s') = w_send (wd s) -> inv out s'.
  Proof. intros (es & E & HB) E1 E2 E3. exists es. rewrite E2. split; [exact E|]. unfold base, all_sends_succeed in *. now rewrite E1, E3. Qed.
  Lemma inv_closed out s : inv out s -> inv out (mkSt (ss_state Closed (sk s)) (wd s)).
  Proof. intros (es & E & HV & H1 & H2 & H3 & H4 & H5). exists es. split; [exact E|]. split; [exact HV|]. auto 10. Qed.
  Lemma event_in es rest e : all = es ++ e :: rest -> from_stream a chunks i1 i2 e.
  Proof. intros E. rewrite E in Hall. apply Forall_app in Hall as [_ H]. now inversion H. Qed.

  Lemma timeout_waits out s : waiting out s -> wp handle_receive_timeout (fun o s' => match o with Ret _ => waiting out s' | Fail (Panic _) => True | Fail _ => waiting out s' end) s.
  Proof.
    intros HW. unfold handle_receive_timeout. do 2 wstep. wstep. wstep; [exact (fun _ _ => I)|]. intros _. do 2 wstep. do 2 wstep. sproj.
    set (c := u64 (s_congestion_timeout (sk s) * 2)).
    assert (HW1 : waiting out (mkSt (ss_cwnd MSS (ss_congestion_timeout c (sk s))) (wd s))) by exact HW. clearbody c. revert HW1.
    generalize (mkSt (ss_cwnd MSS (ss_congestion_timeout c (sk s))) (wd s)) as s1. intros s1 HW1.
    change (s_send_window (ss_cwnd _ _)) with (s_send_window (sk s)). change (s_state (ss_cwnd _ _)) with (s_state (sk s)).
    destruct HW as ((es & _ & _ & _ & _ & HS & _) & _ & HC). rewrite HS, HC. cbn [sstate_eqb negb].
    assert (HF : forall s1, waiting out s1 -> wp fast_resend_packet (fun o s' => match o with Ret _ => waiting out s' | Fail (Panic _) => True | Fail _ => waiting out s' end) s1).
    { clear. intros s1 HW. unfold fast_resend_packet. do 2 wstep. do 2 wstep. wstep.
      assert (HT : forall d p, waiting out (tx_state d p (ticked s1))).
      { intros d p. destruct HW as (H1 & H2 & H3). split; [|split; assumption]. unfold tx_state. destruct (tx_ok _); eapply inv_same; try exact H1; reflexivity. }
      apply wp_udp_send; intros; first [wstep|idtac]; apply HT. }
    unfold send_fast_resend_request. wstep. eapply wp_conseq; [apply HF, HW1|]. intros [?|[]] s2 H2; auto.
    wstep. eapply wp_conseq; [apply HF, H2|]. intros [?|[]] s3 H3; auto.
  Qed.

  Lemma wait_spec out s : waiting out s -> wp wait_datagram (fun o s' => match o with
      | Ret (b, src) => exists es d, all = es ++ RxDgram d src :: w_in (wd s') /\ b = firstn (BUF_SIZE + HEADER_SIZE) d /\ base es out s' /\ drained (sk s') /\ s_state (sk s') = Connected
      | Fail (Panic _) => True
      | Fail _ => inv out s' /\ drained (sk s') end) s.
  Proof.
    intros HW. unfold wait_datagram. do 2 wstep. apply (wp_loop (fun _ => waiting out)); [exact HW| |].
    { intros _ t HT. split; apply HT. }
    intros r t (HI & HD & HC). do 2 wstep. wstep.
    { do 2 wstep. wstep. split; [now apply inv_closed|exact HD]. }
    destruct HI as (es & E & HV). wstep. apply wp_udp_recv.
    - intros E0. split; [exists es; auto|exact HD].
    - intros d src rest E0. wstep. exists es, d. rewrite E0 in E. unfold rx_state. rewrite E0. auto 10.
    - intros k rest E0. assert (HW' : waiting out (rx_state t)).
      { split; [|auto]. exists (es ++ [RxErr k]). unfold rx_state. rewrite E0. cbn [tl]. sproj. rewrite <- app_assoc. split; [rewrite E0 in E; exact E|].
        destruct HV as [HV HV']. split; [|exact HV']. apply view_skip; [|exact HV]. intros j (p & (d & src & EE & _) & _). discriminate. }
      destruct (is_timeout k).
      + wstep. eapply wp_conseq; [apply timeout_waits, HW'|]. intros [?|[]] s2 H2; auto; try (split; apply H2).
      + wstep. split; apply HW'.
    - intros rest E0. split; [|exact HD]. exists (es ++ [RxCancel]). unfold rx_state. rewrite E0. cbn [tl]. sproj. rewrite <- app_assoc. split; [rewrite E0 in E; exact E|].
      destruct HV as [HV HV']. split; [|exact HV']. apply view_skip; [|exact HV]. intros j (p & (d & src & EE & _) & _). discriminate.
  Qed.

  Lemma wp_ext {A} (m m' : M A) Q s : m s = m' s -> wp m' Q s -> wp m Q s.
  Proof. unfold wp. now intros ->. Qed.
  Lemma wp_handle_own rec p src ty Q s : get_type p = Some ty -> own_id (sk s) p -> wp (dispatch rec p ty src) Q (noted p s) -> wp (handle_packet rec p src) Q s.
  Proof. intros HT HO. unfold wp. now rewrite (handle_own rec p src ty s HT (or_introl HO)). Qed.
  Lemma wp_send_ok dest p (Q : outcome (result unit kind) -> st -> Prop) s : all_sends_succeed s -> Q (Ret (Ok tt)) (tx_state dest p s) -> wp (udp_send dest p) Q s.
  Proof. intros HS HQ. assert (EX : tx_ok s = true) by (unfold tx_ok; now rewrite HS). unfold wp. rewrite (send_ok_eq dest p s EX). exact HQ. Qed.
  Lemma sends_tx dest p s : all_sends_succeed s -> all_sends_succeed (tx_state dest p s).
  Proof. unfold all_sends_succeed, tx_state. destruct (tx_ok s); auto. Qed.
  Lemma in_tx dest p s : w_in (wd (tx_state dest p s)) = w_in (wd s).
  Proof. unfold tx_state. destruct (tx_ok s); reflexivity. Qed.

  Definition kept (p : packet) (ty : ptype) (k : socket) : socket :=
    if ptype_eqb ty PData && (0 <? u16 (seq_nr p - s_last_dropped k)) then ss_incoming_buffer (insert_packet p (s_incoming_buffer k)) k else k.
  Lemma answer_spec p ty n src r es out t : (0 < n)%nat -> all = es ++ w_in (wd t) -> base es out (mkSt (kept p ty (sk t)) (wd t)) -> wp (answer p ty n src (Some r)) (ended out) t.
  Proof.
    intros Hn E HB. unfold answer.
    assert (HS : all_sends_succeed t) by apply HB.
    wstep. wstep. apply wp_send_ok; [exact HS|]. cbn [try_]. wstep. set (t1 := tx_state _ _ t).
    assert (E1 : w_in (wd t1) = w_in (wd t)) by apply in_tx. assert (S1 : all_sends_succeed t1) by (apply sends_tx, HS). assert (K1 : sk t1 = sk t) by reflexivity. clearbody t1.
    do 2 wstep. rewrite K1. wstep.
    eapply (wp_conseq _ (fun o s' => o = Ret tt /\ s' = mkSt (kept p ty (sk t)) (wd t1))).
    { unfold kept, insert_into_buffer. rewrite <- K1. destruct (_ && _); wstep; (split; [reflexivity|]); [reflexivity|now destruct t1]. }
    intros o t2 [ -> -> ]. wstep. eapply wp_conseq; [apply flush_incoming_spec|]. intros [data|[]] t3 H3; try exact I; try contradiction.
    destruct H3 as [ -> -> ]. wstep. sproj.
    destruct HB as (HV & HX1 & HX2 & HX3 & HX4 & _). destruct (view_flush es out n _ Hn HV) as [HV2 HD2].
    split; [|exact HD2]. exists es. sproj. split; [now rewrite E1|]. split; [exact HV2|]. sproj. sproj_in HX1. sproj_in HX2. sproj_in HX3. sproj_in HX4.
    rewrite fr_fl_s_sender_connection_id, fr_fl_s_receiver_connection_id, fr_fl_s_send_window, fr_fl_s_state. auto 10.
  Qed.

  Lemma sacked_answer q r t s (Q : outcome packet -> st -> Prop) : plain_reply t s r ->
    (forall r', Q (Ret r') s) -> (forall l, Q (Fail (Panic l)) s) -> wp (attach_sack q r) Q s.
  Proof.
    intros HR H1 H2. eapply wp_conseq; [apply (attach_sack_spec (fun _ _ => False) (fun _ => False)) with (t := t); (exact HR || (intros; contradiction))|]. intros [r'|[]] s'; try contradiction; [intros [ -> _]; apply H1|intros ->; apply H2].
  Qed.
  Lemma process_spec rec n out s es d src : (0 < n)%nat -> all = es ++ RxDgram d src :: w_in (wd s) -> base es out s -> drained (sk s) -> s_state (sk s) = Connected ->
    wp (process_datagram rec n (firstn (BUF_SIZE + HEADER_SIZE) d) src) (ended out) s.
  Proof.
    intros Hn E HB HD HC. assert (E' : all = (es ++ [RxDgram d src]) ++ w_in (wd s)) by (rewrite <- app_assoc; exact E).
    pose proof (event_in _ _ _ E) as HF. destruct HB as (HV & HI1 & HI2 & HS & _ & HT).
    destruct (parse_total (firstn (BUF_SIZE + HEADER_SIZE) d)) as [[p|err] EP].
    2:{ eapply wp_ext; [apply process_junk; intros p Hp; congruence|]. split; [|intros _; exact HD]. exists (es ++ [RxDgram d src]). split; [exact E'|]. rewrite app_nil_r.
        split; [|auto 10]. apply view_skip; [|exact HV]. intros j (p & (d' & src' & EE & Hp) & _). injection EE as <- <-. change 1520%nat with (BUF_SIZE + HEADER_SIZE)%nat in Hp. congruence. }
    assert (HDv : delivers (RxDgram d src) p) by (exists d, src; split; [reflexivity|exact EP]).
    destruct (HF p HDv) as [HO HK].
    assert (HOwn : own_id (sk s) p) by (unfold own_id; rewrite HI1, HI2; exact HO).
    assert (HSt : s_state (acked_sk p (sk s)) = Connected) by (now rewrite (acked_other s_state) by reflexivity).
    assert (HNB : forall w, w_in w = w_in (wd s) -> w_send w = w_send (wd s) -> all_sends_succeed (mkSt (sk s) w)) by (intros w _ Ew i; cbn; rewrite Ew; apply HT).
    destruct HK as [[j Hj]|[Hf|Ho]].
    - eapply wp_ext; [apply (process_packet _ _ _ _ p PData _ EP (proj1 Hj))|]. wstep. apply (wp_handle_own _ p src PData); [exact (proj1 Hj)|exact HOwn|].
      unfold dispatch. do 2 wstep. unfold noted. sproj. rewrite HSt. unfold handle_data_packet. do 2 wstep. cbv zeta. wstep.
      eapply wp_conseq; [apply prepare_keep|]. intros o t1 ( -> & r & -> & HR). wstep. eapply sacked_answer; [exact HR| |intros; exact I]. intros r'. wstep.
      apply (answer_spec _ _ _ _ _ (es ++ [RxDgram d src])); [exact Hn|exact E'|]. sproj. cbn [ticked sk wd]. sproj.
      split; [|unfold kept; destruct (_ && _); cbn [sk ticked]; sproj; rewrite ?(acked_other s_sender_connection_id), ?(acked_other s_receiver_connection_id), ?(acked_other s_send_window), ?HSt by reflexivity; auto 10].
      eapply view_fields; [..|eapply view_data; [exact HV|exact HD|exact HDv|exact Hj]]; unfold kept, stored; cbn [ptype_eqb andb sk ticked]; sproj;
        rewrite (acked_other s_last_dropped) by reflexivity; destruct (0 <? _); sproj; rewrite ?(acked_other s_incoming_buffer) by reflexivity; reflexivity.
    - eapply wp_ext; [apply (process_packet _ _ _ _ p PFin _ EP (proj1 Hf))|]. wstep. apply (wp_handle_own _ p src PFin); [exact (proj1 Hf)|exact HOwn|].
      unfold dispatch. do 2 wstep. unfold noted. sproj. rewrite HSt. wstep.
      eapply wp_conseq; [apply prepare_keep|]. intros o t1 ( -> & r & -> & HR). wstep. eapply sacked_answer; [exact HR| |intros; exact I]. intros r'. do 2 wstep. wstep.
      apply (answer_spec _ _ _ _ _ (es ++ [RxDgram d src])); [exact Hn|exact E'|]. unfold kept. cbn [ptype_eqb andb ticked sk wd]. sproj.
      split; [|sproj; rewrite ?(acked_other s_sender_connection_id), ?(acked_other s_receiver_connection_id), ?(acked_other s_send_window) by reflexivity; auto 10].
      apply view_skip; [intros j; apply (no_bring _ p); [exact HDv|rewrite (proj1 Hf); discriminate]|].
      eapply view_fields; [..|eapply view_fin; [exact HV|exact HD|exact Hf]]; reflexivity.
    - eapply wp_ext; [apply (process_packet _ _ _ _ p PSyn _ EP (proj1 Ho))|]. wstep. apply (wp_handle_own _ p src PSyn); [exact (proj1 Ho)|exact HOwn|].
      unfold dispatch. do 2 wstep. unfold noted. sproj. rewrite HSt. wstep.
      eapply wp_conseq; [apply prepare_keep|]. intros o t1 ( -> & r & -> & HR). wstep.
      apply (answer_spec _ _ _ _ _ (es ++ [RxDgram d src])); [exact Hn|exact E'|]. unfold kept. cbn [ptype_eqb andb ticked sk wd]. sproj.
      rewrite (view_syn es out (sk s) p HV Ho).
      split; [|sproj; auto 10].
      apply view_skip; [intros j; apply (no_bring _ p); [exact HDv|rewrite (proj1 Ho); discriminate]|]. exact HV.
  Qed.

  Lemma recv_spec n out s : (0 < n)%nat -> waiting out s -> wp (recv n) (ended out) s.
  Proof.
    intros Hn HW. unfold recv. do 2 wstep. cbn [recv_fuel]. unfold recv_body. wstep.
    eapply wp_conseq; [apply wait_spec, HW|]. intros [[b src]|[]] s1 H1; auto.
    destruct H1 as (es & d & E & -> & HB & HD & HC). now apply (process_spec _ n out s1 es d src).
  Qed.
  Definition read_end (out : list byte) (o : outcome (list byte * addr)) (s : st) : Prop :=
    match o with
    | Ret (data, _) => inv (out ++ data) s /\ (data = [] -> drained (sk s))
    | Fail (Panic _) => True
    | Fail _ => inv out s /\ drained (sk s)
    end.
  Lemma recv_from_spec n out s : (0 < n)%nat -> inv out s -> wp (recv_from n) (read_end out) s.
  Proof.
    intros Hn (es & E & HV & HI1 & HI2 & HS & HC & HT). unfold recv_from. wstep. eapply wp_conseq; [apply flush_incoming_spec|].
    intros [data|[]] s1 H1; try exact I; try contradiction. destruct H1 as [ -> -> ]. destruct (view_flush es out n (sk s) Hn HV) as [HV2 HD2].
    assert (HI : inv (out ++ fst (flush_sk n (sk s))) (mkSt (snd (flush_sk n (sk s))) (wd s))).
    { exists es. sproj. split; [exact E|]. split; [exact HV2|]. sproj. rewrite fr_fl_s_sender_connection_id, fr_fl_s_receiver_connection_id, fr_fl_s_send_window, fr_fl_s_state. auto 10. }
    assert (HC2 : s_state (snd (flush_sk n (sk s))) = Connected \/ s_state (snd (flush_sk n (sk s))) = Closed) by (rewrite fr_fl_s_state; exact HC).
    do 2 wstep. destruct (fst (flush_sk n (sk s))) as [|b0 data] eqn:EF; cbn [is_nil negb].
    2:{ wstep. split; [exact HI|discriminate]. }
    rewrite app_nil_r in HI. specialize (HD2 eq_refl). sproj.
    replace (sstate_eqb _ ResetReceived) with false by (destruct HC2 as [ -> | -> ]; reflexivity). do 2 wstep.
    apply (wp_loop (fun _ t => inv out t /\ drained (sk t))); [split; assumption|intros _ t HT'; exact HT'|].
    intros _ t [HI' HD']. do 2 wstep. wstep.
    { wstep. cbn [read_end]. rewrite app_nil_r. auto. }
    assert (HW : waiting out t). { split; [exact HI'|]. split; [exact HD'|]. destruct HI' as (? & _ & _ & _ & _ & _ & [H|H] & _); [exact H|]. rewrite H in Heqb. discriminate. }
    wstep. eapply wp_conseq; [apply (recv_spec n out t Hn HW)|]. intros [[data src]|[]] t1 H1; auto. destruct H1 as [H1 H2]. cbn [fst].
    destruct data as [|b0 data]; cbn [is_nil]; wstep; [rewrite app_nil_r in H1; auto|split; [exact H1|discriminate]].
  Qed.

  Lemma read_cons r rs : bytes_read (r :: rs) = bytes_of r ++ bytes_read rs.
  Proof. reflexivity. Qed.
  (** A history of reads. *)
  Lemma reads_inv ns : forall out s, Forall (fun n => 0 < n)%nat ns -> inv out s ->
    let '(rs, s') := run_ops (map ORecvFrom ns) s in
    (existsb panicked rs = false -> inv (out ++ bytes_read rs) s') /\ exists rest, concat chunks = (out ++ bytes_read rs) ++ rest.
  Proof.
    induction ns as [|n ns IH]; intros out s HF HI; cbn [map run_ops].
    { unfold bytes_read. cbn. rewrite app_nil_r. split; [auto|]. destruct HI as (es & _ & HV & _). now apply (view_prefix es out (sk s)). }
    inversion HF as [|? ? Hn HF']; subst. pose proof (recv_from_spec n out s Hn HI) as HR. unfold wp in HR.
    cbn [run_op]. unfold bind at 1. destruct (recv_from n s) as [[[data src]|f] s1] eqn:E; cbn [fst snd ret] in HR |- *.
    - specialize (IH (out ++ data) s1 HF' (proj1 HR)). destruct (run_ops (map ORecvFrom ns) s1) as [rs s2] eqn:E2. cbn [existsb panicked orb].
      rewrite read_cons. cbn [bytes_of]. rewrite app_assoc. exact IH.
    - destruct f as [kd|l| |]; cbn [read_end] in HR; 
        try (specialize (IH out s1 HF' (proj1 HR)); destruct (run_ops (map ORecvFrom ns) s1) as [rs s2] eqn:E2; cbn [existsb panicked orb]; rewrite read_cons; exact IH).
      split; [discriminate|]. unfold bytes_read. cbn. rewrite app_nil_r. destruct HI as (es & _ & HV & _). now apply (view_prefix es out (sk s)).
  Qed.
  (** A read that ends without data leaves nothing behind that it could have handed out. *)
  Lemma quiet_complete out s' : ~ duplicated all -> inv out s' -> drained (sk s') ->
    exists es d, all = es ++ w_in (wd s') /\ out = concat (firstn d chunks) /\ (d <= N)%nat /\ (forall j, (j < d)%nat -> arrived es j) /\ ((d < N)%nat -> ~ arrived es d).
  Proof.
    intros HU (es & EA & HV & _) HD. destruct HV as (HPc & d & Hd & HL & [(EP & -> & [HIi|HJ])|(pre & -> & _ & _ & _ & _ & HX)]).
    - exists es, d. split; [exact EA|]. split; [reflexivity|]. split; [exact Hd|]. destruct (drained_idle es d (sk s') HPc HIi HD) as [[HA HH]|[_ HH]].
      + split; [intros j Hj; apply (proj1 HIi); auto|]. intros _ HAr. apply (proj1 HIi) in HAr as [HAr|HAr]; [lia|contradiction].
      + split; [intros j Hj; apply (proj1 HIi); auto|]. lia.
    - exfalso. apply HU. rewrite EA. destruct HJ as ((l1 & e1 & l2 & e2 & l3 & j & EE & HB) & _). exists l1, e1, l2, e2, (l3 ++ w_in (wd s')), j. split; [|exact HB].
      rewrite EE, <- app_assoc. cbn. now rewrite <- app_assoc.
    - destruct HD; congruence.
  Qed.
  Lemma blocked_complete n out s s' f : (0 < n)%nat -> ~ duplicated all -> inv out s -> recv_from n s = (Fail f, s') -> (forall l, f <> Panic l) ->
    exists es d, all = es ++ w_in (wd s') /\ out = concat (firstn d chunks) /\ (d <= N)%nat /\ (forall j, (j < d)%nat -> arrived es j) /\ ((d < N)%nat -> ~ arrived es d).
  Proof.
    intros Hn HU HI E HP. pose proof (recv_from_spec n out s Hn HI) as HR. unfold wp in HR. rewrite E in HR. cbn [fst snd] in HR.
    assert (HR' : inv out s' /\ drained (sk s')) by (destruct f; cbn in HR; try exact HR; now elim (HP line)). now apply quiet_complete.
  Qed.
  Lemma ended_complete n out s s' src : (0 < n)%nat -> ~ duplicated all -> inv out s -> recv_from n s = (Ret ([], src), s') ->
    exists es d, all = es ++ w_in (wd s') /\ out = concat (firstn d chunks) /\ (d <= N)%nat /\ (forall j, (j < d)%nat -> arrived es j) /\ ((d < N)%nat -> ~ arrived es d).
  Proof.
    intros Hn HU HI E. pose proof (recv_from_spec n out s Hn HI) as HR. unfold wp in HR. rewrite E in HR. cbn [fst snd read_end] in HR.
    rewrite app_nil_r in HR. destruct HR as [HR1 HR2]. now apply quiet_complete; [|exact HR1|apply HR2].
  Qed.
End Rx.

Lemma reader_view a chunks s : 0 <= a -> reader_at a s -> view a chunks [] [] (sk s).
Proof.
  intros Ha (ES & EA & EL & EB & EP & EW). split; [split; rewrite EB; constructor|]. exists 0%nat. split; [lia|]. split; [lia|]. left. split; [exact EP|]. split; [reflexivity|]. left.
  split; [|left; lia]. unfold clean, holds. rewrite EB. split; [|intros j (p & [] & _)]. intros j. split; [intros (e & [] & _)|intros [H|(p & [] & _)]; lia].
Qed.
Lemma reader_inv a chunks s : 0 <= a -> reader_at a s -> all_sends_succeed s ->
  inv a chunks (s_sender_connection_id (sk s)) (s_receiver_connection_id (sk s)) (w_in (wd s)) [] s.
Proof. intros Ha HR HT. exists []. split; [reflexivity|]. split; [now apply reader_view|]. destruct HR as (ES & _ & _ & _ & _ & EW). auto 10. Qed.
Lemma reader_prefix a chunks s ns :
  0 <= a -> a + Z.of_nat (length chunks) + 1 < 65535 -> Forall (fun c => c <> []) chunks ->
  reader_at a s -> all_sends_succeed s ->
  Forall (from_stream a chunks (s_sender_connection_id (sk s)) (s_receiver_connection_id (sk s))) (w_in (wd s)) ->
  Forall (fun n => 0 < n)%nat ns ->
  prefix_of (bytes_read (fst (run_ops (map ORecvFrom ns) s))) (concat chunks).
Proof.
  intros Ha HN Hne HR HT HA HF. pose proof (reads_inv a chunks _ _ Ha HN Hne _ HA ns [] s HF (reader_inv a chunks s Ha HR HT)) as H.
  destruct (run_ops (map ORecvFrom ns) s) as [rs s']. apply H.
Qed.
Lemma reader_complete a chunks s ns n s1 s2 :
  0 <= a -> a + Z.of_nat (length chunks) + 1 < 65535 -> Forall (fun c => c <> []) chunks ->
  reader_at a s -> all_sends_succeed s ->
  Forall (from_stream a chunks (s_sender_connection_id (sk s)) (s_receiver_connection_id (sk s))) (w_in (wd s)) ->
  ~ duplicated a chunks (w_in (wd s)) -> Forall (fun n => 0 < n)%nat ns -> (0 < n)%nat ->
  existsb panicked (fst (run_ops (map ORecvFrom ns) s)) = false -> s1 = snd (run_ops (map ORecvFrom ns) s) -> recv_from n s1 = (Fail Pend, s2) ->
  exists es d, w_in (wd s) = es ++ w_in (wd s2) /\ bytes_read (fst (run_ops (map ORecvFrom ns) s)) = concat (firstn d chunks) /\
    (d <= length chunks)%nat /\ (forall j, (j < d)%nat -> arrived a chunks es j) /\ ((d < length chunks)%nat -> ~ arrived a chunks es d).
Proof.
  intros Ha HN Hne HR HT HA HU HF Hn HP -> HB. pose proof (reads_inv a chunks _ _ Ha HN Hne _ HA ns [] s HF (reader_inv a chunks s Ha HR HT)) as H.
  destruct (run_ops (map ORecvFrom ns) s) as [rs s']. cbn [fst snd] in *. destruct H as [H _]. specialize (H HP).
  eapply blocked_complete; try eassumption. discriminate.
Qed.

(** The same for a read that reports the end of the stream (C26). *)
Lemma reader_ended a chunks s ns n s1 src s2 :
  0 <= a -> a + Z.of_nat (length chunks) + 1 < 65535 -> Forall (fun c => c <> []) chunks ->
  reader_at a s -> all_sends_succeed s ->
  Forall (from_stream a chunks (s_sender_connection_id (sk s)) (s_receiver_connection_id (sk s))) (w_in (wd s)) ->
  ~ duplicated a chunks (w_in (wd s)) -> Forall (fun n => 0 < n)%nat ns -> (0 < n)%nat ->
  existsb panicked (fst (run_ops (map ORecvFrom ns) s)) = false -> s1 = snd (run_ops (map ORecvFrom ns) s) -> recv_from n s1 = (Ret ([], src), s2) ->
  exists es d, w_in (wd s) = es ++ w_in (wd s2) /\ bytes_read (fst (run_ops (map ORecvFrom ns) s)) = concat (firstn d chunks) /\
    (d <= length chunks)%nat /\ (forall j, (j < d)%nat -> arrived a chunks es j) /\ ((d < length chunks)%nat -> ~ arrived a chunks es d).
Proof.
  intros Ha HN Hne HR HT HA HU HF Hn HP -> HB. pose proof (reads_inv a chunks _ _ Ha HN Hne _ HA ns [] s HF (reader_inv a chunks s Ha HR HT)) as H.
  destruct (run_ops (map ORecvFrom ns) s) as [rs s']. cbn [fst snd] in *. destruct H as [H _]. specialize (H HP).
  eapply ended_complete; try eassumption.
Qed.

(** A packet of the stream that does not arrive is not skipped (C23): the events are also a network's image of a
    stream that differs at that place. *)
Lemma firstn_common {A} (l r1 m r2 : list A) x y c1 c2 : l ++ r1 = m ++ x :: c1 -> l ++ r2 = m ++ y :: c2 -> x <> y -> exists t, m = l ++ t.
Proof.
  revert m. induction l as [|z l IH]; intros m H1 H2 HN; [now exists m|]. destruct m as [|w m].
  - cbn in *. congruence.
  - cbn in *. injection H1 as <- H1. injection H2 as H2. destruct (IH m H1 H2 HN) as [t ->]. now exists t.
Qed.
Lemma nth_error_set {A} i (v : A) l j : j <> i -> nth_error (firstn i l ++ v :: skipn (S i) l) j = nth_error l j \/ (length l <= i)%nat.
Proof.
  intros HJ. destruct (Nat.le_gt_cases (length l) i) as [|HL]; [now right|left]. assert (HF : length (firstn i l) = i) by (rewrite firstn_length; lia).
  destruct (Nat.lt_ge_cases j i) as [H|H].
  - rewrite nth_error_app1 by lia. rewrite <- (firstn_skipn i l) at 2. now rewrite nth_error_app1 by lia.
  - rewrite nth_error_app2 by lia. rewrite HF. destruct (j - i)%nat as [|m] eqn:E; [lia|]. cbn [nth_error]. rewrite <- (firstn_skipn (S i) l) at 2.
    rewrite nth_error_app2 by (rewrite firstn_length; lia). rewrite firstn_length. f_equal. lia.
Qed.
Lemma reader_not_skipped a chunks s ns i :
  0 <= a -> a + Z.of_nat (length chunks) + 1 < 65535 -> Forall (fun c => c <> []) chunks ->
  reader_at a s -> all_sends_succeed s ->
  Forall (from_stream a chunks (s_sender_connection_id (sk s)) (s_receiver_connection_id (sk s))) (w_in (wd s)) ->
  Forall (fun n => 0 < n)%nat ns -> (i < length chunks)%nat -> ~ arrived a chunks (w_in (wd s)) i ->
  prefix_of (bytes_read (fst (run_ops (map ORecvFrom ns) s))) (concat (firstn i chunks)).
Proof.
  intros Ha HN Hne HR HT HA HF Hi HM. destruct (nth_error chunks i) as [c|] eqn:EC; [|apply nth_error_None in EC; lia].
  assert (Hc : c <> []) by (rewrite Forall_forall in Hne; apply Hne; eapply nth_error_In; exact EC). destruct c as [|x c]; [congruence|].
  assert (HY : exists y, x <> y) by (destruct (Byte.byte_eq_dec x x00) as [->|]; [exists x01; discriminate|exists x00; assumption]). destruct HY as [y HY].
  assert (HL : length (firstn i chunks ++ [y] :: skipn (S i) chunks) = length chunks) by (rewrite app_length; cbn [length]; rewrite firstn_length, skipn_length; lia).
  destruct (reader_prefix a chunks s ns) as [r1 E1]; try assumption.
  destruct (reader_prefix a (firstn i chunks ++ [y] :: skipn (S i) chunks) s ns) as [r2 E2]; try assumption.
  - rewrite HL. exact HN.
  - rewrite <- (firstn_skipn i) in Hne. apply Forall_app in Hne as [H1 H2]. apply Forall_app. split; [exact H1|]. constructor; [discriminate|].
    assert (HT' : forall (l : list (list byte)) m, Forall (fun c => c <> []) (skipn m l) -> Forall (fun c => c <> []) (skipn (S m) l)).
    { clear. induction l as [|w l IH]; intros [|m] H; cbn in *; auto. now inversion H. }
    now apply HT'.
  - rewrite Forall_forall in HA |- *. intros e He p Hp. destruct (HA e He p Hp) as [HO [[j Hj]|[Hf|Hs]]]; split; auto.
    + left. exists j. destruct (Nat.eq_dec j i) as [->|Hji]; [exfalso; apply HM; exists e; split; [exact He|]; exists p; auto|].
      destruct Hj as (H1 & H2 & c' & H3 & H4). split; [exact H1|]. split; [exact H2|]. exists c'. split; [|exact H4].
      destruct (nth_error_set i [y] chunks j Hji) as [->|]; [exact H3|lia].
    + right. left. unfold ends. rewrite HL. exact Hf.
  - assert (HC : concat chunks = concat (firstn i chunks) ++ x :: c ++ concat (skipn (S i) chunks)).
    { rewrite <- (firstn_skipn (S i) chunks) at 1. rewrite concat_app, (firstn_next chunks i _ EC), <- app_assoc. reflexivity. }
    rewrite concat_app in E2. cbn [concat app] in E2. rewrite HC in E1. unfold prefix_of.
    eapply firstn_common; [symmetry; exact E1|symmetry; exact E2|exact HY].
Qed.

(** ** Checking concrete scripts *)
Lemma bytes_eqb_eq l m : bytes_eqb l m = true -> l = m.
Proof. unfold bytes_eqb. destruct (list_eq_dec _ _ _); [auto|discriminate]. Qed.
Lemma eventb_sound a chunks i1 i2 e : eventb a chunks i1 i2 e = true -> from_stream a chunks i1 i2 e.
Proof.
  intros H p (d & src & -> & HP). cbn [eventb] in H. rewrite HP in H. apply andb_prop in H as [H1 H2]. split; [unfold addressed; lia|].
  destruct (get_type p) as [[]|] eqn:ET; try discriminate.
  - left. apply andb_prop in H2 as [H2 H3]. set (j := Z.to_nat _) in *. exists j. split; [exact ET|]. split; [lia|].
    destruct (nth_error chunks j) as [c|]; [|discriminate]. destruct (payload p) as [pl|]; [|discriminate]. apply bytes_eqb_eq in H3. subst. eauto.
  - right. left. split; [exact ET|lia].
  - right. right. split; [exact ET|lia].
Qed.
Lemma events_sound a chunks i1 i2 es : forallb (eventb a chunks i1 i2) es = true -> Forall (from_stream a chunks i1 i2) es.
Proof. intros H. apply Forall_forall. intros e He. apply eventb_sound. rewrite forallb_forall in H. now apply H. Qed.
Lemma bringsb_complete a chunks e j : Z.of_nat (length chunks) < 65536 -> brings a chunks e j -> bringsb a chunks e = Some j.
Proof.
  intros HL (p & (d & src & -> & HP) & HT & HS & c & Hc & _). cbn [bringsb]. rewrite HP, HT. f_equal.
  assert ((j < length chunks)%nat) by (apply nth_error_Some; congruence). rewrite HS. lia.
Qed.
Fixpoint distinctb (l : list nat) : bool := match l with [] => true | x :: r => negb (existsb (Nat.eqb x) r) && distinctb r end.
Definition positions (a : Z) (chunks : list (list byte)) (es : list rx) : list nat :=
  concat (map (fun e => match bringsb a chunks e with Some j => [j] | None => [] end) es).
Lemma distinct_sound a chunks es : Z.of_nat (length chunks) < 65536 -> distinctb (positions a chunks es) = true -> ~ duplicated a chunks es.
Proof.
  intros HL H (l1 & e1 & l2 & e2 & l3 & j & -> & H1 & H2). apply (bringsb_complete a chunks _ _ HL) in H1, H2.
  unfold positions in H. rewrite map_app, concat_app in H. cbn [map concat] in H. rewrite H1, map_app, concat_app in H. cbn [map concat] in H. rewrite H2 in H.
  revert H. generalize (concat (map (fun e => match bringsb a chunks e with Some j => [j] | None => [] end) l1)) as x1.
  generalize (concat (map (fun e => match bringsb a chunks e with Some j => [j] | None => [] end) l2)) as x2. intros x2 x1.
  induction x1 as [|x x1 IH]; cbn [app distinctb]; intros H; apply andb_prop in H as [HA HB]; [|auto].
  apply negb_true_iff in HA. rewrite <- not_true_iff_false in HA. apply HA. apply existsb_exists. exists j. split; [|apply Nat.eqb_refl].
  apply in_or_app. right. now left.
Qed.

