(** The selective-ack bitmap (C56). *)
From Verif Require Export Inv.
Require Import ZifyBool ZifyNat ZifyN.
Local Open Scope Z_scope.
Ltac Zify.zify_post_hook ::= Z.div_mod_to_equations.

(** Bit [i] of a bitmap; bits past its end are 0. *)
Definition sack_bit (sack : list byte) (i : nat) : bool := nth i (bit_string sack) false.

Lemma sack_bit_spec sack i : sack_bit sack i = Z.testbit (b2z (nth (i / 8) sack x00)) (Z.of_nat (i mod 8)).
Proof.
  unfold sack_bit. destruct (Nat.lt_ge_cases (i / 8) (length sack)) as [L|L].
  - apply nth_error_nth. apply bit_string_nth. now apply nth_error_nth'.
  - rewrite (nth_overflow sack) by exact L. change (b2z x00) with 0. rewrite Z.bits_0. apply nth_overflow. rewrite bit_string_length. lia.
Qed.
Lemma sack_bit_zeros sack k i : sack_bit (sack ++ repeat x00 k) i = sack_bit sack i.
Proof.
  rewrite !sack_bit_spec. f_equal. f_equal. destruct (Nat.lt_ge_cases (i / 8) (length sack)) as [L|L].
  - now rewrite app_nth1.
  - rewrite app_nth2, (nth_overflow sack) by lia. apply nth_repeat.
Qed.

Definition pad_target (i L : nat) : nat := 4 * ((Nat.max L (i + 1) + 3) / 4).
Lemma sack_pad_spec fuel i sack : (pad_target i (length sack) < fuel + length sack)%nat ->
  sack_pad fuel i sack = Some (sack ++ repeat x00 (pad_target i (length sack) - length sack)).
Proof.
  revert sack. induction fuel as [|f IH]; intros sack H; [unfold pad_target in H; lia|]. cbn [sack_pad].
  destruct ((length sack <=? i)%nat || negb (length sack mod 4 =? 0)%nat) eqn:E.
  - assert (ET : pad_target i (length (sack ++ [x00])) = pad_target i (length sack)) by (rewrite app_length; cbn [length]; unfold pad_target; lia).
    rewrite IH by (rewrite ET, app_length; cbn [length]; lia). rewrite ET, app_length, <- app_assoc. cbn [length]. do 2 f_equal.
    replace (pad_target i (length sack) - length sack)%nat with (S (pad_target i (length sack) - (length sack + 1))) by (unfold pad_target; lia). reflexivity.
  - replace (pad_target i (length sack) - length sack)%nat with 0%nat by (unfold pad_target; lia). cbn. now rewrite app_nil_r.
Qed.
Lemma sack_mark_spec sack diff : 0 <= diff -> (length sack mod 4 = 0)%nat -> exists sack', sack_mark sack diff = Some sack' /\
  (length sack' mod 4 = 0)%nat /\ length sack' = Nat.max (length sack) (4 * Z.to_nat (diff / 32 + 1)) /\
  forall j, sack_bit sack' j = sack_bit sack j || (Z.of_nat j =? diff).
Proof.
  intros Hd HL. unfold sack_mark. cbv zeta. set (i := Z.to_nat (diff / 8)).
  rewrite sack_pad_spec by (unfold pad_target; lia).
  set (k := (pad_target i (length sack) - length sack)%nat).
  assert (Hlen : length (sack ++ repeat x00 k) = pad_target i (length sack)).
  { rewrite app_length, repeat_length. unfold k, pad_target. lia. }
  assert (Hi : (i < length (sack ++ repeat x00 k))%nat) by (rewrite Hlen; unfold pad_target; lia).
  rewrite (nth_error_nth' _ x00 Hi). eexists. split; [reflexivity|].
  rewrite list_set_length, Hlen. split; [unfold pad_target; lia|]. split; [unfold pad_target; lia|].
  intros j. rewrite <- (sack_bit_zeros sack k j), !sack_bit_spec.
  destruct (Nat.eq_dec i (j / 8)) as [E|E].
  - rewrite E in Hi |- *. rewrite nth_list_set_eq by exact Hi. set (b := nth (j / 8) (sack ++ repeat x00 k) x00).
    pose proof (b2z_range b) as Hb.
    assert (Hor : 0 <= Z.lor (b2z b) (Z.shiftl 1 (diff mod 8)) < 256).
    { assert (0 <= diff mod 8 < 8) as Hm by lia. assert (0 <= Z.shiftl 1 (diff mod 8)) as H0 by (apply Z.shiftl_nonneg; lia).
      split; [apply Z.lor_nonneg; lia|].
      assert (Hs : Z.shiftl 1 (diff mod 8) < 2 ^ 8).
      { rewrite Z.shiftl_1_l. apply Z.pow_lt_mono_r; lia. }
      destruct (Z.eq_dec (Z.lor (b2z b) (Z.shiftl 1 (diff mod 8))) 0) as [->|NZ]; [lia|].
      change 256 with (2 ^ 8). apply Z.log2_lt_pow2; [pose proof (proj2 (Z.lor_nonneg (b2z b) (Z.shiftl 1 (diff mod 8)))); lia|].
      rewrite Z.log2_lor by lia. apply Z.max_lub_lt.
      - destruct (Z.eq_dec (b2z b) 0) as [->|]; [cbn; lia|]. apply Z.log2_lt_pow2; lia.
      - apply Z.log2_lt_pow2; [|exact Hs]. rewrite Z.shiftl_1_l. apply Z.pow_pos_nonneg; lia. }
    rewrite z2b_small by exact Hor. rewrite Z.lor_spec. f_equal.
    rewrite Z.shiftl_1_l, Z.pow2_bits_eqb by lia. lia.
  - rewrite nth_list_set_ne by exact E. replace (Z.of_nat j =? diff) with false by lia. now rewrite orb_false_r.
Qed.

(** The packets the bitmap covers. *)
Definition covers (ack : Z) (buf : list packet) (i : nat) : Prop :=
  exists p, In p buf /\ u16 (ack + 1) < seq_nr p /\ u16 (seq_nr p - ack - 2) = Z.of_nat i.
Lemma sack_build_spec ack buf : forall sack, (length sack mod 4 = 0)%nat -> exists sack', sack_build ack sack buf = Some sack' /\
  (length sack' mod 4 = 0)%nat /\
  (forall i, sack_bit sack' i = true <-> sack_bit sack i = true \/ covers ack buf i) /\
  (forall M, (length sack <= M)%nat -> (M mod 4 = 0)%nat -> (forall p, In p buf -> u16 (seq_nr p - ack - 2) < 8 * Z.of_nat M \/ seq_nr p <= u16 (ack + 1)) -> (length sack' <= M)%nat) /\
  (sack' = [] <-> sack = [] /\ forall p, In p buf -> seq_nr p <= u16 (ack + 1)).
Proof.
  induction buf as [|p buf IH]; intros sack HL.
  - exists sack. change (sack_build ack sack []) with (Some sack). split; [reflexivity|]. split; [exact HL|]. split; [|split].
    + intros i. split; [now left|]. intros [H|(p & [] & _)]. exact H.
    + auto.
    + split; [intros ->; split; [reflexivity|]; intros p []|tauto].
  - change (sack_build ack sack (p :: buf)) with (if u16 (ack + 1) <? seq_nr p then match sack_mark sack (u16 (seq_nr p - ack - 2)) with Some sack' => sack_build ack sack' buf | None => None end else sack_build ack sack buf).
    destruct (u16 (ack + 1) <? seq_nr p) eqn:E.
    + destruct (sack_mark_spec sack (u16 (seq_nr p - ack - 2))) as (s1 & -> & H1 & H2 & H3); [apply u16_range|exact HL|].
      destruct (IH s1 H1) as (s2 & -> & H4 & H5 & H6 & H7). exists s2. split; [reflexivity|]. split; [exact H4|]. split; [|split].
      * intros i. rewrite H5, H3. rewrite orb_true_iff. split.
        -- intros [[H|H]|(q & Hq & Hq2)]; [now left| |].
           ++ right. exists p. split; [now left|]. lia.
           ++ right. exists q. split; [now right|exact Hq2].
        -- intros [H|(q & [<-|Hq] & Hq2)]; [left; now left| |].
           ++ left. right. lia.
           ++ right. exists q. auto.
      * intros M HM1 HM2 HM3. apply H6; auto.
        -- rewrite H2. pose proof (HM3 p (or_introl eq_refl)). pose proof (u16_range (seq_nr p - ack - 2)). lia.
        -- intros q Hq. apply HM3. now right.
      * rewrite H7. split.
        -- intros [-> _]. exfalso. cbn [length] in H2. pose proof (u16_range (seq_nr p - ack - 2)). lia.
        -- intros [_ H]. specialize (H p (or_introl eq_refl)). lia.
    + destruct (IH sack HL) as (s2 & -> & H4 & H5 & H6 & H7). exists s2. split; [reflexivity|]. split; [exact H4|]. split; [|split].
      * intros i. rewrite H5. split; (intros [H|(q & Hq & Hq2)]; [now left|]); right; exists q.
        -- split; [now right|exact Hq2].
        -- destruct Hq as [<-|Hq]; [lia|]. auto.
      * intros M HM1 HM2 HM3. apply H6; auto. intros q Hq. apply HM3. now right.
      * rewrite H7. split; intros [H H']; (split; [exact H|]); intros q Hq; [destruct Hq as [<-|Hq]; [lia|]|]; apply H'; auto. now right.
Qed.
