(** How much one acknowledgement changes the congestion window (lemmas for C80 and C81). *)
From Verif Require Export CwndProofs Accuracy.
Require Import ZifyBool Lia QArith Qpower Lqa.
Local Open Scope Z_scope.

Lemma f_mul_comm_fin s1 m1 e1 f : f_mul (S754_finite s1 m1 e1) f = f_mul f (S754_finite s1 m1 e1).
Proof. unfold f_mul, SFmul. destruct f; try (now rewrite xorb_comm); try reflexivity. now rewrite xorb_comm, Pos.mul_comm, Z.add_comm. Qed.
Lemma f_trunc_floor p e : (inject_Z (f_trunc false p e) <= inject_Z (Zpos p) * P e /\ inject_Z (Zpos p) * P e < inject_Z (f_trunc false p e + 1))%Q.
Proof.
  unfold f_trunc. destruct (Z.leb_spec 0 e) as [He|He].
  - rewrite (P_Z e He), <- inject_Z_mult. split; [apply Qle_refl|]. rewrite <- Zlt_Qlt. lia.
  - pose proof (pow2_pos (- e) ltac:(lia)) as HP. set (d := 2 ^ - e) in *. pose proof (Z.div_mod (Zpos p) d ltac:(lia)) as HD. pose proof (Z.mod_pos_bound (Zpos p) d HP) as HM. set (q := Zpos p / d) in *.
    assert (HPe : (P e * inject_Z d == 1)%Q). { unfold d. rewrite <- P_Z by lia. rewrite <- P_plus. now replace (e + - e) with 0 by lia. }
    assert (Id : (0 < inject_Z d)%Q) by (rewrite <- (Zlt_Qlt 0); exact HP).
    assert (HV : (inject_Z (Zpos p) * P e * inject_Z d == inject_Z (Zpos p))%Q). { rewrite <- Qmult_assoc, HPe. ring. }
    split; [apply (Qmult_lt_0_le_reg_r _ _ (inject_Z d) Id)|apply (Qmult_lt_r _ _ (inject_Z d) Id)]; rewrite HV, <- inject_Z_mult; [apply Accuracy.inj_le|rewrite <- Zlt_Qlt]; nia.
Qed.
Lemma normalize_neg z e : z <= 0 -> f_to_u32 (binary_normalize prec emax z e false) = 0.
Proof.
  intros H. destruct z as [|p|p]; [reflexivity|lia|]. cbn [binary_normalize]. unfold binary_round. destruct (shl_align _ _ _). apply negative_to_u32. lia.
Qed.

(** The float computation of the increment: six roundings from the exact increment. *)
Definition increment (q bytes c : Z) : f64 :=
  f_div (f_mul (f_mul (f_mul (f_of_Z 1) (off_target_of q)) (f_of_Z bytes)) (f_of_Z MSS)) (f_of_Z c).
Definition one_off (q : Z) : f64 := f_mul (f_of_Z 1) (off_target_of q).
Lemma one_off_zero q : u32 q = TARGET -> one_off q = S754_zero false.
Proof. intros E. unfold one_off, off_target_of. rewrite E. reflexivity. Qed.
Lemma mod1 : moderate (inject_Z 1). Proof. split; vm_compute; discriminate. Qed.
Lemma inj_1_of z : inject_Z z == inject_Z z / inject_Z 1. Proof. field. Qed.
Lemma exactly_moderate z n : 1 <= z <= 2 ^ 400 -> (n <= 8)%nat -> moderate (Qpower (1 - ulp) (Z.of_nat n) * inject_Z z) /\ moderate (Qpower (1 + ulp) (Z.of_nat n) * inject_Z z).
Proof. intros H Hn. apply (moderate_intro z 1); [apply inj_1_of|exact H|split; [lia|]|exact Hn]. apply Z.pow_le_mono_r with (b := 0); lia. Qed.
Lemma big a b : 0 <= b -> a < 2 ^ b -> b <= 400 -> a <= 2 ^ 400.
Proof. intros H1 H2 H3. pose proof (pow2_le b 400 H3). lia. Qed.
Lemma distance_app q : u32 q <> TARGET -> app 1 (TARGET <? u32 q) (f_sub (f_of_Z TARGET) (f_of_Z (u32 q))) (inject_Z (Z.abs (TARGET - u32 q))).
Proof.
  intros HN. pose proof (u32_range q) as Hq. pose proof pow53. set (u := u32 q) in *. clearbody u.
  assert (HT : exactly false (f_of_Z TARGET) (inject_Z TARGET)) by (apply exactly_of_Z; split; reflexivity).
  assert (HM : moderate (inject_Z (Z.abs (TARGET - u)))).
  { destruct (exactly_moderate (Z.abs (TARGET - u)) 0) as [[H1 _] _]; [split; [lia|apply (big _ 33); unfold TARGET; lia]|lia|].
    destruct (exactly_moderate (Z.abs (TARGET - u)) 0) as [[_ H2] _]; [split; [lia|apply (big _ 33); unfold TARGET; lia]|lia|].
    change (Qpower (1 - ulp) (Z.of_nat 0)) with 1%Q in *. rewrite Qmult_1_l in H1, H2. split; assumption. }
  destruct (Z.eq_dec u 0) as [->|Hu].
  - rewrite f_of_Z_0. replace (f_sub (f_of_Z TARGET) (S754_zero false)) with (f_of_Z TARGET) by reflexivity. destruct HT as (p & e & E & HP & HE). exists p, e. split; [exact E|]. split; [exact HP|]. rewrite HE. split; vm_compute; discriminate.
  - pose proof (exactly_of_Z u ltac:(lia)) as HU. destruct (sub_sum _ _ _ _ _ _ HT HU) as (z & e & -> & HZ). cbv iota in HZ.
    assert (HZ' : inject_Z z * P e == inject_Z (TARGET - u)). { rewrite HZ. unfold Z.sub. rewrite inject_Z_plus, inject_Z_opp. reflexivity. }
    assert (HPe := P_pos e).
    assert (HS : (z < 0 <-> TARGET - u < 0) /\ z <> 0).
    { assert (HC : forall a b, (inject_Z a * P e == inject_Z b)%Q -> 0 < b -> 0 < a).
      { intros a b HE Hb. assert (0 < inject_Z b)%Q by (rewrite <- (Zlt_Qlt 0); exact Hb). rewrite <- HE in H0. destruct (Z.ltb_spec 0 a); [assumption|exfalso]. pose proof (mul_le _ _ _ HPe (Accuracy.inj_le a 0 ltac:(lia))) as H2. rewrite Qmult_0_l in H2. apply (Qlt_irrefl 0). eapply Qlt_le_trans; eassumption. }
      assert (HC2 : forall a b, (inject_Z a * P e == inject_Z b)%Q -> b < 0 -> a < 0).
      { intros a b HE Hb. assert (0 < - a); [|lia]. apply (HC (- a) (- b)); [|lia]. rewrite !inject_Z_opp, <- HE. ring. }
      destruct (Z.lt_trichotomy (TARGET - u) 0) as [HL|[HL|HL]]; [pose proof (HC2 _ _ HZ' HL); lia|lia|pose proof (HC _ _ HZ' HL); lia]. }
    replace (TARGET <? u) with (z <? 0) by lia. apply normalize_close; [tauto| |exact HM].
    destruct (Z.ltb_spec z 0).
    + rewrite !Z.abs_neq by lia. rewrite !inject_Z_opp, <- HZ'. ring.
    + rewrite !Z.abs_eq by lia. exact HZ'.
Qed.
Lemma one_off_app q : u32 q <> TARGET -> app 3 (TARGET <? u32 q) (one_off q) (inject_Z (Z.abs (TARGET - u32 q)) / inject_Z TARGET).
Proof.
  intros HN. pose proof (u32_range q) as Hq. pose proof (distance_app q HN) as HD. set (D := Z.abs (TARGET - u32 q)) in *.
  assert (H32 : D <= 2 ^ 400) by (apply (big _ 33); unfold D, TARGET; lia). assert (HD1 : 1 <= D) by (unfold D; lia). assert (HTr : 1 <= TARGET <= 2 ^ 400) by (split; [unfold TARGET; lia|apply (big _ 20); unfold TARGET; lia]).
  assert (HT : exactly false (f_of_Z TARGET) (inject_Z TARGET)) by (apply exactly_of_Z; split; reflexivity).
  pose proof (app_div 1 _ _ _ _ _ _ HD HT) as HA. specialize (HA (moderate_intro D TARGET 1 _ (Qeq_refl _) (conj HD1 H32) HTr ltac:(lia)) eq_refl).
  rewrite xorb_false_r in HA. unfold one_off, off_target_of.
  assert (H1 : exactly false (f_of_Z 1) (inject_Z 1)) by (apply exactly_of_Z; split; reflexivity).
  replace (f_of_Z 1) with (S754_finite false 4503599627370496 (-52)) in * by reflexivity. rewrite f_mul_comm_fin.
  pose proof (app_mul 2 _ _ _ _ _ _ HA H1) as HB. assert (HV : (inject_Z D / inject_Z TARGET * inject_Z 1 == inject_Z D / inject_Z TARGET)%Q) by (change (inject_Z 1) with 1%Q; ring).
  specialize (HB (moderate_intro D TARGET 2 _ HV (conj HD1 H32) HTr ltac:(lia)) eq_refl). rewrite xorb_false_r in HB.
  destruct HB as (p & e & E & HP & HB). exists p, e. split; [exact E|]. split; [exact HP|]. rewrite HV in HB. exact HB.
Qed.
Lemma increment_zero q bytes c : (u32 q = TARGET \/ bytes = 0) -> 0 <= bytes < 2 ^ 32 -> 0 < c < 2 ^ 32 -> exists s, increment q bytes c = S754_zero s.
Proof.
  intros H Hb Hc. pose proof pow53. destruct (f_of_Z_exact c ltac:(lia)) as (mc & ec & Ec & _). unfold increment. fold (one_off q). rewrite Ec.
  replace (f_of_Z MSS) with (S754_finite false 6157265115545600 (-42)) by reflexivity.
  assert (HO : exists s f, one_off q = f /\ (f = S754_zero s \/ (exists p e, f = S754_finite s p e /\ bytes = 0))).
  { destruct (Z.eq_dec (u32 q) TARGET) as [E|E]; [exists false; eexists; split; [apply one_off_zero, E|now left]|].
    destruct (one_off_app q E) as (p & e & EO & _). exists (TARGET <? u32 q). eexists. split; [exact EO|]. right. exists p, e. split; [reflexivity|]. destruct H; [contradiction|assumption]. }
  destruct HO as (s & f & -> & [-> |(p & e & -> & ->)]).
  - destruct (Z.eq_dec bytes 0) as [->|HB]; [cbn; eauto|]. destruct (f_of_Z_exact bytes ltac:(lia)) as (mb & eb & -> & _). cbn. eauto.
  - rewrite f_of_Z_0. cbn. eauto.
Qed.
Lemma increment_app q bytes c : u32 q <> TARGET -> 0 < bytes < 2 ^ 32 -> 0 < c < 2 ^ 32 ->
  app 6 (TARGET <? u32 q) (increment q bytes c) (inject_Z (Z.abs (TARGET - u32 q) * bytes * MSS) / inject_Z (TARGET * c)).
Proof.
  intros HN Hb Hc. pose proof pow53 as H53. pose proof (u32_range q) as Hq. pose proof (one_off_app q HN) as HO. unfold increment. fold (one_off q). set (D := Z.abs (TARGET - u32 q)) in *.
  assert (HD : 1 <= D < 2 ^ 33) by (unfold D; unfold TARGET in *; lia). clearbody D. set (f0 := one_off q) in *. clearbody f0. set (s := TARGET <? u32 q) in *. clearbody s.
  assert (HB : exactly false (f_of_Z bytes) (inject_Z bytes)) by (apply exactly_of_Z; lia).
  assert (HM : exactly false (f_of_Z MSS) (inject_Z MSS)) by (apply exactly_of_Z; split; reflexivity).
  assert (HC : exactly false (f_of_Z c) (inject_Z c)) by (apply exactly_of_Z; lia).
  assert (IT : ~ (inject_Z TARGET == 0)%Q) by discriminate. assert (HC0 : (0 < inject_Z c)%Q) by (rewrite <- (Zlt_Qlt 0); lia). assert (IC : ~ (inject_Z c == 0)%Q) by (intros E; rewrite E in HC0; now apply Qlt_irrefl in HC0).
  assert (HB0 : (0 < inject_Z bytes)%Q) by (rewrite <- (Zlt_Qlt 0); lia).
  assert (HTr : 1 <= TARGET <= 2 ^ 400) by (split; [unfold TARGET; lia|apply (big _ 20); unfold TARGET; lia]).
  assert (E1 : (inject_Z D / inject_Z TARGET * inject_Z bytes == inject_Z (D * bytes) / inject_Z TARGET)%Q) by (rewrite inject_Z_mult; field; exact IT).
  pose proof (app_mul 3 _ _ _ _ _ _ HO HB (moderate_intro (D * bytes) TARGET 3 _ E1 ltac:(split; [nia|apply (big _ 65); nia]) HTr ltac:(lia)) HB0) as A1. rewrite xorb_false_r in A1.
  assert (E2 : (inject_Z D / inject_Z TARGET * inject_Z bytes * inject_Z MSS == inject_Z (D * bytes * MSS) / inject_Z TARGET)%Q) by (rewrite !inject_Z_mult; field; exact IT).
  pose proof (app_mul 4 _ _ _ _ _ _ A1 HM (moderate_intro (D * bytes * MSS) TARGET 4 _ E2 ltac:(split; [unfold MSS; nia|apply (big _ 80); unfold MSS; nia]) HTr ltac:(lia)) eq_refl) as A2. rewrite xorb_false_r in A2.
  assert (E3 : (inject_Z D / inject_Z TARGET * inject_Z bytes * inject_Z MSS / inject_Z c == inject_Z (D * bytes * MSS) / inject_Z (TARGET * c))%Q) by (rewrite !inject_Z_mult; field; split; assumption).
  pose proof (app_div 5 _ _ _ _ _ _ A2 HC (moderate_intro (D * bytes * MSS) (TARGET * c) 5 _ E3 ltac:(split; [unfold MSS; nia|apply (big _ 80); unfold MSS; nia]) ltac:(split; [unfold TARGET; nia|apply (big _ 60); unfold TARGET; nia]) ltac:(lia)) HC0) as A3. rewrite xorb_false_r in A3.
  destruct A3 as (p & e & E & HP & HA). exists p, e. split; [exact E|]. split; [exact HP|]. rewrite E3 in HA. exact HA.
Qed.
Lemma six_lo : (1 - (7 # 4503599627370496) <= Qpower (1 - ulp) 6)%Q. Proof. vm_compute. discriminate. Qed.
Lemma six_hi : (Qpower (1 + ulp) 6 <= 1 + (7 # 4503599627370496))%Q. Proof. vm_compute. discriminate. Qed.
(** The window before clamping is within one byte of the exact rational formula. *)
Lemma grown_close q bytes c : 0 <= bytes < 2 ^ 32 -> 1400 <= c < 2 ^ 32 ->
  let F := c + (TARGET - u32 q) * bytes * MSS / (TARGET * c) in
  exists g, F - 1 <= g <= F + 1 /\ grown_cwnd (off_target_of q) bytes c = Z.max 0 (Z.min (2 ^ 32 - 1) g).
Proof.
  intros Hb Hc F. pose proof pow53 as H53. pose proof (u32_range q) as Hq. unfold grown_cwnd. cbv zeta. fold (increment q bytes c).
  assert (HCases : (u32 q = TARGET \/ bytes = 0) \/ (u32 q <> TARGET /\ 0 < bytes)) by lia. destruct HCases as [HZ|[HN HB]].
  { destruct (increment_zero q bytes c HZ Hb ltac:(lia)) as [s ->]. exists c. split.
    - unfold F. replace ((TARGET - u32 q) * bytes * MSS) with 0 by (destruct HZ as [->| ->]; lia). rewrite Z.div_0_l by (unfold TARGET; lia). lia.
    - destruct (f_of_Z_exact c ltac:(lia)) as (m & e & E & He & Hm & _). rewrite E. change (f_add (S754_finite false m e) (S754_zero s)) with (S754_finite false m e).
      unfold f_to_u32, f_to_int. f_equal. f_equal. unfold f_trunc. rewrite Hm. destruct (Z.leb_spec 0 e); [replace e with 0 by lia; rewrite Z.pow_0_r; lia|]. apply Z.div_mul. pose proof (pow2_pos (- e) ltac:(lia)). lia. }
  pose proof (increment_app q bytes c HN ltac:(lia) ltac:(lia)) as HA. apply app_exact in HA. destruct HA as (w & HW & HW1 & HW2).
  set (D := Z.abs (TARGET - u32 q)) in *. set (I := (inject_Z (D * bytes * MSS) / inject_Z (TARGET * c))%Q) in *.
  assert (HD : 1 <= D < 2 ^ 32) by (unfold D; unfold TARGET in *; lia).
  assert (IB : (0 < inject_Z (TARGET * c))%Q) by (rewrite <- (Zlt_Qlt 0); unfold TARGET; lia).
  assert (HIlo : (P (-60) <= I)%Q).
  { unfold I. apply Qle_shift_div_l; [exact IB|]. eapply Qle_trans with (inject_Z 1); [|apply Accuracy.inj_le; unfold MSS; nia]. apply Qle_trans with (P (-60) * P 60)%Q; [|apply Qle_lteq; right; reflexivity].
    rewrite !(Qmult_comm (P (-60))). apply mul_le; [apply P_pos|]. rewrite (P_Z 60) by lia. apply Accuracy.inj_le. unfold TARGET. lia. }
  (* the exact increment is below 2^48 *)
  assert (HIhi : (I <= inject_Z (2 ^ 48))%Q).
  { unfold I. apply Qle_shift_div_r; [exact IB|]. rewrite <- inject_Z_mult. apply Accuracy.inj_le. unfold TARGET, MSS. assert (D * bytes <= 2 ^ 32 * 2 ^ 32) by nia. nia. }
  assert (HI0 : (0 < I)%Q) by (eapply Qlt_le_trans; [apply P_pos|exact HIlo]).
  assert (HWl : (I - (7 # 16) <= w)%Q).
  { eapply Qle_trans; [|exact HW1]. apply Qle_trans with ((1 - (7 # 4503599627370496)) * I)%Q; [|apply mul_le; [exact HI0|exact six_lo]]. change (inject_Z (2 ^ 48)) with (281474976710656 # 1)%Q in HIhi. lra. }
  assert (HWh : (w <= I + (7 # 16))%Q).
  { eapply Qle_trans; [exact HW2|]. apply Qle_trans with ((1 + (7 # 4503599627370496)) * I)%Q; [apply mul_le; [exact HI0|exact six_hi]|]. change (inject_Z (2 ^ 48)) with (281474976710656 # 1)%Q in HIhi. lra. }
  assert (HWlo : (P (-147 + 53) <= w)%Q).
  { eapply Qle_trans; [|exact HW1]. apply Qle_trans with ((1 - (7 # 4503599627370496)) * I)%Q; [|apply mul_le; [exact HI0|exact six_lo]].
    apply Qle_trans with ((1 - (7 # 4503599627370496)) * P (-60))%Q; [vm_compute; discriminate|]. rewrite !(Qmult_comm (1 - _)). apply mul_le; [reflexivity|exact HIlo]. }
  assert (HFl : (inject_Z F <= inject_Z c + (if (TARGET <? u32 q)%Z then - I else I))%Q /\ (inject_Z c + (if (TARGET <? u32 q)%Z then - I else I) < inject_Z (F + 1))%Q).
  { assert (HE : ((if (TARGET <? u32 q)%Z then - I else I) == inject_Z ((TARGET - u32 q) * bytes * MSS) / inject_Z (TARGET * c))%Q).
    { unfold I, D. destruct (Z.ltb_spec TARGET (u32 q)).
      - rewrite Z.abs_neq by lia. replace (- (TARGET - u32 q) * bytes * MSS) with (- ((TARGET - u32 q) * bytes * MSS)) by ring. rewrite inject_Z_opp. field. intros E. rewrite E in IB. now apply Qlt_irrefl in IB.
      - rewrite Z.abs_eq by lia. reflexivity. }
    rewrite HE. unfold F. set (A := (TARGET - u32 q) * bytes * MSS). set (B := TARGET * c) in *. assert (HB0 : 0 < B) by (unfold B, TARGET; lia).
    pose proof (Z.div_mod A B ltac:(lia)) as HDM. pose proof (Z.mod_pos_bound A B HB0) as HMB. rewrite <- Z.add_assoc, !inject_Z_plus. split.
    - apply Qplus_le_r. apply Qle_shift_div_l; [exact IB|]. rewrite <- inject_Z_mult. apply Accuracy.inj_le. lia.
    - apply Qplus_lt_r. apply Qlt_shift_div_r; [exact IB|]. rewrite <- inject_Z_plus, <- inject_Z_mult. rewrite <- Zlt_Qlt. lia. }
  destruct HFl as [HF1 HF2]. set (s := TARGET <? u32 q) in *. set (X := (inject_Z c + (if s then - I else I))%Q) in *.
  pose proof (exactly_of_Z c ltac:(lia)) as HC. destruct (add_sum _ _ _ _ _ _ HC HW) as (z & e & -> & HZ & HK). cbv iota in HZ.
  assert (HPe := P_pos e). assert (Hc1 : (inject_Z 1400 <= inject_Z c)%Q) by (apply Accuracy.inj_le; lia). assert (Hc2 : (inject_Z c <= inject_Z (2 ^ 32))%Q) by (apply Accuracy.inj_le; lia).
  assert (He : -147 <= e). { apply HK; [|exact HWlo]. eapply Qle_trans; [|exact Hc1]. vm_compute. discriminate. } clear HK.
  set (S := (inject_Z z * P e)%Q) in *. assert (HSX1 : (X - (7 # 16) <= S)%Q) by (rewrite HZ; unfold X; destruct s; lra). assert (HSX2 : (S <= X + (7 # 16))%Q) by (rewrite HZ; unfold X; destruct s; lra).
  destruct (Z.leb_spec z 0) as [Hz|Hz].
  - rewrite normalize_neg by exact Hz. exists F. split; [lia|]. assert (HS0 : (S <= 0)%Q). { unfold S. pose proof (mul_le _ _ _ HPe (Accuracy.inj_le z 0 Hz)) as H. now rewrite Qmult_0_l in H. }
    assert (F < 1); [|lia]. rewrite (Zlt_Qlt F 1). change (inject_Z 1) with 1%Q. lra.
  - assert (HSlo : (P (-147) <= S)%Q). { unfold S. eapply Qle_trans; [apply P_mono, He|]. apply P_below. lia. }
    assert (HShi : (S <= inject_Z (2 ^ 50))%Q). { change (inject_Z (2 ^ 50)) with (1125899906842624 # 1)%Q. change (inject_Z (2 ^ 48)) with (281474976710656 # 1)%Q in HIhi. change (inject_Z (2 ^ 32)) with (4294967296 # 1)%Q in Hc2. unfold X in HSX2. destruct s; lra. }
    assert (HM : moderate S). { split; [eapply Qle_trans; [|exact HSlo]; apply P_mono; lia|]. eapply Qle_trans; [exact HShi|]. rewrite <- P_Z by lia. apply P_mono. lia. }
    assert (Hzz : (inject_Z (Z.abs z) * P e == S)%Q) by (rewrite Z.abs_eq by lia; reflexivity).
    destruct (normalize_close z e S ltac:(lia) Hzz HM) as (p & e' & -> & _ & HR1 & HR2). replace (z <? 0) with false by lia.
    change (Qpower (1 - ulp) (Z.of_nat 1)) with (1 - ulp)%Q in HR1. change (Qpower (1 + ulp) (Z.of_nat 1)) with (1 + ulp)%Q in HR2. set (x := (inject_Z (Zpos p) * P e')%Q) in *.
    destruct (f_trunc_floor p e') as [HT1 HT2]. fold x in HT1, HT2. exists (f_trunc false p e'). split; [|unfold f_to_u32, f_to_int; reflexivity].
    change (inject_Z (2 ^ 50)) with (1125899906842624 # 1)%Q in HShi. unfold ulp in HR1, HR2.
    assert (HS0 : (0 <= S)%Q) by (eapply Qle_trans; [apply Qlt_le_weak, P_pos|exact HSlo]).
    set (t := f_trunc false p e') in *. rewrite (inject_Z_plus F 1) in HF2. rewrite (inject_Z_plus t 1) in HT2. change (inject_Z 1) with 1%Q in HF2, HT2.
    assert (F < t + 2 /\ t < F + 2); [|lia]. split; rewrite Zlt_Qlt, inject_Z_plus; change (inject_Z 2) with 2%Q; lra.
Qed.

(** ** What an acknowledgement records *)
Lemma drop_old_split now thr l : exists dropped kept, l = dropped ++ kept /\ drop_old now thr l = kept /\ Forall (fun x => thr < now - fst x) dropped /\
  match kept with [] => True | x :: _ => now - fst x <= thr end.
Proof.
  induction l as [|[t d] l IH]; [exists [], []; cbn; auto|]. cbn [drop_old]. unfold ts_sub. destruct (Z.ltb_spec thr (now - t)) as [H|H].
  - destruct IH as (dropped & kept & -> & -> & HF & HK). exists ((t, d) :: dropped), kept. cbn. auto.
  - exists [], ((t, d) :: l). cbn. auto.
Qed.
Definition recorded (i : nat) (s s' : st) : Prop :=
  exists p, nth_error (s_send_window (sk s)) i = Some p /\
  let now := clock_now s in let d := now - timestamp p in
  s_base_delays (sk s') = s_base_delays (base_delay_socket d now (sk s)) /\ s_last_rollover (sk s') = s_last_rollover (base_delay_socket d now (sk s)) /\
  s_current_delays (sk s') = drop_old now (s_rtt (sk s) * 100) (s_current_delays (sk s)) ++ [(now, d)] /\
  let r := (d - measured (sk s')) mod 2 ^ 32 / 1000 in
  s_rtt (sk s') = s_rtt (rto_sk r (sk s)) /\ s_rtt_variance (sk s') = s_rtt_variance (rto_sk r (sk s)) /\ s_congestion_timeout (sk s') = s_congestion_timeout (rto_sk r (sk s)).
Lemma rto_frame r k k' : s_rtt k = s_rtt k' -> s_rtt_variance k = s_rtt_variance k' ->
  s_rtt (rto_sk r k) = s_rtt (rto_sk r k') /\ s_rtt_variance (rto_sk r k) = s_rtt_variance (rto_sk r k') /\ s_congestion_timeout (rto_sk r k) = s_congestion_timeout (rto_sk r k').
Proof. intros H1 H2. unfold rto_sk. cbv zeta. sproj. rewrite H1, H2. auto. Qed.
Lemma u32_sub a b c : u32 b = u32 c -> u32 (a - b) = u32 (a - c).
Proof. rewrite !u32_eq. intros H. rewrite Zminus_mod, H, <- Zminus_mod. reflexivity. Qed.
Lemma process_ack_recorded i s s' : process_ack i s = (Ret tt, s') -> recorded i s s'.
Proof.
  intros H. assert (HW : wp (process_ack i) (fun o s' => match o with Ret _ => recorded i s s' | _ => True end) s); [|unfold wp in HW; rewrite H in HW; exact HW].
  clear H s'. unfold process_ack. do 2 wstep. cbv zeta. do 3 wstep. apply wp_unwrap; [|intros; exact I]. intros p Hp. cbv zeta. sproj_in Hp.
  unfold update_base_delay, update_current_delay. do 4 wstep. sproj. wstep.
  eapply wp_conseq; [apply (queuing_delay_value)|]. intros [q|[]] t [-> HH]; cbv beta iota in HH |- *; try exact I; try contradiction.
  unfold update_congestion_window. do 3 wstep. cbv zeta. do 2 wstep. sproj. wstep; wstep; [intros; exact I|intros _]. wstep. sproj.
  wstep. eapply wp_conseq; [apply (queuing_delay_value)|]. intros [q'|[]] t [-> HH2]; cbv beta iota in HH2 |- *; try exact I; try contradiction.
  wstep; wstep; [intros; exact I|intros _].
  match goal with |- wp (update_congestion_timeout ?d) _ ?t => pose proof (update_congestion_timeout_val d t) as HV end.
  eapply wp_conseq; [apply HV|]. intros [[]|] t HT; [|exact I]. cbv beta iota in HT. rewrite HT. clear HV HT.
  exists p. split; [exact Hp|]. cbv zeta. sproj_in HH2. unfold ts_sub in *. change (sk (ticked s)) with (sk s) in *. sproj.
  set (d := clock_now s - timestamp p) in *.
  match goal with |- context [rto_sk ?r ?k] => set (K := k) in *; assert (EM : measured (rto_sk r K) = measured K) by (apply measured_frame; frame; reflexivity) end.
  rewrite EM. assert (ER : i32 (u32 (i64 (d - q')) / 1000) = (d - measured K) mod 2 ^ 32 / 1000).
  { rewrite u32_i64, (u32_sub d q' (measured K) HH2). change (2 ^ 32) with 4294967296. rewrite <- u32_eq. apply i32_range_small. pose proof (u32_range (d - measured K)). lia. }
  rewrite ER. split; [unfold K; frame; reflexivity|]. split; [unfold K; frame; reflexivity|]. split; [unfold K, current_delay_socket; do 2 frame; reflexivity|].
  apply rto_frame; unfold K, current_delay_socket; do 2 frame; reflexivity.
Qed.
