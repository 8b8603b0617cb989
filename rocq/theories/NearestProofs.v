(** Rounding to nearest loses at most half a unit in the last place; hence the moving average of util.rs:7-16 with the weight 0.333 never falls below the
    least sample.  Proved from the definitions of [SpecFloat] (no axioms). *)
From Verif Require Export Float FloatProofs Accuracy EwmaProofs.
Require Import ZifyBool Lia QArith Qpower Lqa.
Local Open Scope Z_scope.

(** ** Half a unit *)
(** What the two extra bits of a shifted exact number say about the part shifted out. *)
Definition halved (m k : Z) (x : shr_record) : Prop :=
  (shr_r x = false -> 2 * (m mod 2 ^ k) <= 2 ^ k) /\ (shr_s x = false -> 2 * (m mod 2 ^ k) <= 2 ^ k).
Lemma shr_1_bits x : 0 <= shr_m x -> shr_r (shr_1 x) = Z.odd (shr_m x) /\ shr_s (shr_1 x) = inexact x.
Proof. destruct x as [m r s]. unfold inexact. cbn [shr_m shr_r shr_s]. destruct m as [|[p|p|]|p]; intros H; [| | | |lia]; cbn [shr_1 shr_m shr_r shr_s Z.odd]; auto. Qed.
Lemma halved_1 m k x : 0 <= m -> 0 <= k -> shifted m false k x -> halved m (k + 1) (shr_1 x).
Proof.
  intros Hm Hk [H1 H2]. assert (H2k : 0 < 2 ^ k) by (apply Z.pow_pos_nonneg; lia). assert (HN : 0 <= shr_m x) by (rewrite H1; apply Z.div_pos; lia).
  destruct (shr_1_bits x HN) as [B1 B2]. unfold halved. rewrite B1, B2, H2, H1. cbn [orb]. rewrite Z.pow_add_r, Z.pow_1_r by lia. rewrite Z.rem_mul_r by lia. rewrite Zmod_odd.
  pose proof (Z.mod_pos_bound m (2 ^ k) H2k). split; intros E.
  - rewrite E. lia.
  - apply negb_false_iff, Z.eqb_eq in E. rewrite E. destruct (Z.odd (m / 2 ^ k)); lia.
Qed.
Lemma halved_iter m p : 0 <= m -> forall k x, 0 <= k -> shifted m false k x -> halved m (k + Zpos p) (SpecFloat.iter_pos shr_1 p x).
Proof.
  intros Hm. induction p as [p IH|p IH|]; intros k x Hk H; cbn [SpecFloat.iter_pos].
  - replace (k + Zpos p~1) with (k + 1 + Zpos p + Zpos p) by lia. apply IH; [lia|]. apply shifted_iter; [exact Hm|lia|]. now apply shifted_1.
  - replace (k + Zpos p~0) with (k + Zpos p + Zpos p) by lia. apply IH; [lia|]. now apply shifted_iter.
  - now apply halved_1.
Qed.
Lemma shr_fexp_half m e : 0 <= m ->
  let k := Z.max 0 (fexp64 (Zdigits2 m + e) - e) in
  exists x, shr_fexp prec emax m e loc_Exact = (x, e + k) /\ shifted m false k x /\ halved m k x.
Proof.
  intros Hm k. unfold shr_fexp, shr. fold fexp64. pose proof (record_of_loc m loc_Exact Hm) as HR. cbn [is_exact negb] in HR.
  assert (H0 : halved m 0 (shr_record_of_loc m loc_Exact)) by (unfold halved; rewrite Z.mod_1_r; cbn; lia).
  unfold k. destruct (fexp64 (Zdigits2 m + e) - e) as [|p|p] eqn:E.
  - eexists. split; [f_equal; lia|]. split; assumption.
  - eexists. split; [f_equal; lia|]. replace (Z.max 0 (Zpos p)) with (0 + Zpos p) by lia. split; [apply shifted_iter; [lia|lia|exact HR]|apply halved_iter; [lia|lia|exact HR]].
  - eexists. split; [f_equal; lia|]. split; assumption.
Qed.
(** The rounding of an exact number, with the bound from below. *)
Lemma round_aux_half sx m e : 0 <= m -> exists k1 k2 r, k1 = Z.max 0 (fexp64 (Zdigits2 m + e) - e) /\
  m / 2 ^ k1 <= r <= m / 2 ^ k1 + (if m mod 2 ^ k1 =? 0 then 0 else 1) /\ 2 * m <= (2 * r + 1) * 2 ^ k1 /\
  k2 = Z.max 0 (fexp64 (Zdigits2 r + (e + k1)) - (e + k1)) /\
  binary_round_aux prec emax sx m e loc_Exact =
    match r / 2 ^ k2 with Z0 => S754_zero sx | Zpos p => if e + k1 + k2 <=? 971 then S754_finite sx p (e + k1 + k2) else S754_infinity sx | Zneg _ => S754_nan end.
Proof.
  intros Hm. unfold binary_round_aux. destruct (shr_fexp_half m e Hm) as (x & E1 & (S1 & I1) & (L1 & L2)). rewrite E1.
  set (k1 := Z.max 0 (fexp64 (Zdigits2 m + e) - e)) in *. assert (HK : 0 < 2 ^ k1) by (apply Z.pow_pos_nonneg; unfold k1; lia).
  set (r := round_nearest_even (shr_m x) (loc_of_shr_record x)). pose proof (rne_bounds (shr_m x) (loc_of_shr_record x)) as HR. fold r in HR. rewrite exact_loc, I1, S1 in HR. cbn [orb] in HR.
  assert (HR0 : 0 <= r) by (pose proof (Z.div_pos m (2 ^ k1) Hm HK); lia).
  destruct (shr_fexp_spec r (e + k1) loc_Exact HR0) as (y & E2 & S2 & _). rewrite E2.
  exists k1, (Z.max 0 (fexp64 (Zdigits2 r + (e + k1)) - (e + k1))), r. split; [reflexivity|]. split; [|split; [|split; [reflexivity|]]].
  - rewrite negb_involutive in HR. exact HR.
  - pose proof (Z.div_mod m (2 ^ k1) ltac:(lia)) as HD. pose proof (Z.mod_pos_bound m (2 ^ k1) HK) as HB. set (q := m / 2 ^ k1) in *. set (w := m mod 2 ^ k1) in *.
    assert (HQ : q <= r) by lia.
    destruct (shr_r x) eqn:ER, (shr_s x) eqn:ES.
    + assert (Hr : r = q + 1). { unfold r, loc_of_shr_record. rewrite <- S1. destruct x as [xm xr xs]. cbn [shr_m shr_r shr_s] in ER, ES |- *. rewrite ER, ES. reflexivity. } rewrite Hr. nia.
    + specialize (L2 eq_refl). nia.
    + specialize (L1 eq_refl). nia.
    + specialize (L1 eq_refl). nia.
  - rewrite S2. reflexivity.
Qed.

Local Open Scope Q_scope.
(** One rounding of a positive number of moderate size: the result is not below the exact value, or it is full and at most half a unit below. *)
Lemma round_half sx v m e : (0 < m)%Z -> v == inject_Z m * P e -> moderate v ->
  exists p e', binary_round_aux prec emax sx m e loc_Exact = S754_finite sx p e' /\ (Zpos p < 2 ^ 53)%Z /\
    (v <= inject_Z (Zpos p) * P e' \/ (2 ^ 52 <= Zpos p)%Z /\ v <= (inject_Z (Zpos p) + (1 # 2)) * P e').
Proof.
  intros Hm HL [HV1 HV2]. destruct (Zdigits2_bounds m Hm) as [[HD1 HD2] HD3]. set (d := Zdigits2 m) in *. assert (HPe := P_pos e).
  assert (HU : (-902 <= d + e)%Z).
  { destruct (Z.leb_spec (-902) (d + e)); [assumption|exfalso].
    assert (inject_Z m * P e <= P (d + e)). { rewrite P_plus, (P_Z d) by lia. apply mul_le; [exact HPe|apply Accuracy.inj_le; lia]. }
    pose proof (P_lt (d + e) (-900) ltac:(lia)) as H1. apply (Qlt_irrefl v). rewrite HL at 1. eapply Qle_lt_trans; [exact H0|]. eapply Qlt_le_trans; [exact H1|exact HV1]. }
  destruct (round_aux_half sx m e ltac:(lia)) as (k1 & k2 & r & Hk1 & Hr & Hh & Hk2 & ->). fold d in Hk1. rewrite fexp64_eq in Hk1, Hk2.
  assert (HK : k1 = Z.max 0 (d - 53)) by (clear - Hk1 HU; lia). assert (HK0 : (0 <= k1)%Z) by (clear - HK; lia). pose proof (pow2_pos k1 HK0) as HP1.
  set (E := (e + k1)%Z) in *. assert (HPE := P_pos E).
  assert (HQ1 : inject_Z (m / 2 ^ k1) * P E <= v).
  { rewrite HL. unfold E. rewrite P_plus, (P_Z k1) by lia. pose proof (Accuracy.inj_le (m / 2 ^ k1 * 2 ^ k1) m ltac:(pose proof (Z.div_mod m (2 ^ k1) ltac:(lia)); pose proof (Z.mod_pos_bound m (2 ^ k1) HP1); nia)) as H. rewrite inject_Z_mult in H. rewrite (Qmult_comm (P e)), Qmult_assoc. apply mul_le; [exact HPe|exact H]. }
  assert (HQ2 : v <= (inject_Z r + (1 # 2)) * P E).
  { rewrite HL. unfold E. rewrite P_plus, (P_Z k1) by lia. pose proof (Accuracy.inj_le _ _ Hh) as H. rewrite !inject_Z_mult, inject_Z_plus, inject_Z_mult in H. change (inject_Z 2) with 2 in H. change (inject_Z 1) with 1 in H.
    rewrite (Qmult_comm (P e)), Qmult_assoc. apply mul_le; [exact HPe|]. lra. }
  destruct (m mod 2 ^ k1 =? 0)%Z eqn:EX.
  - apply Z.eqb_eq in EX. assert (Hrm : (m = r * 2 ^ k1)%Z). { pose proof (Z.div_mod m (2 ^ k1) ltac:(lia)). nia. } assert (Hr0 : (0 < r)%Z) by nia.
    assert (Hr53 : (r < 2 ^ 53)%Z).
    { assert (2 ^ d <= 2 ^ 53 * 2 ^ k1)%Z by (rewrite <- Z.pow_add_r by lia; apply pow2_le; lia). nia. }
    assert (HDr : (Zdigits2 r <= 53)%Z).
    { destruct (Zdigits2_bounds r Hr0) as [[HE1 HE2] HE3]. destruct (Z.leb_spec (Zdigits2 r) 53); [assumption|]. assert (2 ^ 53 <= 2 ^ (Zdigits2 r - 1))%Z by (apply pow2_le; lia). lia. }
    assert (HDr2 : (d <= Zdigits2 r + k1)%Z).
    { destruct (Zdigits2_bounds r Hr0) as [[HE1 HE2] HE3]. destruct (Z.leb_spec d (Zdigits2 r + k1)); [assumption|]. assert (2 ^ (Zdigits2 r + k1) <= 2 ^ (d - 1))%Z by (apply pow2_le; lia). rewrite Z.pow_add_r in H0 by lia. nia. }
    assert (k2 = 0)%Z by lia. subst k2. rewrite H in *. rewrite Z.div_1_r, Z.add_0_r. destruct r as [|p|p]; try lia.
    assert (HEQ : v == inject_Z (Zpos p) * P E). { rewrite HL, Hrm, inject_Z_mult, <- P_Z by lia. unfold E. rewrite P_plus. ring. }
    assert (HE : (E <= 900)%Z).
    { apply P_le_inv. eapply Qle_trans; [apply (P_below (Zpos p)); lia|]. rewrite <- HEQ. exact HV2. }
    replace (E <=? 971)%Z with true by lia. exists p, E. split; [reflexivity|]. split; [lia|]. left. rewrite HEQ. apply Qle_refl.
  - assert (HK1 : k1 <> 0%Z) by (intros ->; rewrite Z.mod_1_r in EX; discriminate). assert (Hkd : k1 = (d - 53)%Z) by (clear - HK HK0 HK1; lia).
    assert (Hq : (2 ^ 52 <= m / 2 ^ k1 < 2 ^ 53)%Z).
    { split.
      + apply Z.div_le_lower_bound; [lia|]. rewrite <- Z.pow_add_r by lia. replace (k1 + 52)%Z with (d - 1)%Z by (clear - Hkd; lia). exact HD1.
      + apply Z.div_lt_upper_bound; [lia|]. rewrite <- Z.pow_add_r by lia. replace (k1 + 53)%Z with d by (clear - Hkd; lia). exact HD2. }
    set (q := (m / 2 ^ k1)%Z) in *. 
    assert (HEE : (E <= 900)%Z).
    { apply P_le_inv. eapply Qle_trans; [|exact HV2]. eapply Qle_trans; [|exact HQ1]. apply P_below. lia. }
    assert (HEl : (-955 <= E)%Z) by (clear - HU Hkd; unfold E; lia).
    assert (Hr' : (2 ^ 52 <= r <= 2 ^ 53)%Z) by (clear - Hr Hq; lia). clear HV1 HV2. destruct (Z.eq_dec r (2 ^ 53)) as [HR53|HR53].
    + rewrite HR53 in *. change (Zdigits2 (2 ^ 53)) with 54%Z in Hk2. assert (k2 = 1)%Z by lia. subst k2. rewrite H in *. change (2 ^ 53 / 2 ^ 1)%Z with (Zpos (2 ^ 52)).
      replace (E + 1 <=? 971)%Z with true by lia. exists (2 ^ 52)%positive, (E + 1)%Z. split; [reflexivity|]. split; [reflexivity|]. right. split; [reflexivity|]. rewrite P_plus. change (P 1) with 2. change (inject_Z (2 ^ 53)) with (2 * inject_Z (Zpos (2 ^ 52))) in HQ2. nra.
    + assert (HDr : Zdigits2 r = 53%Z) by (apply Zdigits2_unique; [lia|]; change (53 - 1)%Z with 52%Z; lia). rewrite HDr in Hk2. assert (k2 = 0)%Z by lia. subst k2. rewrite H in *. rewrite Z.div_1_r, Z.add_0_r.
      destruct r as [|p|p]; try lia. replace (E <=? 971)%Z with true by lia. exists p, E. split; [reflexivity|]. split; [lia|]. right. split; [lia|exact HQ2].
Qed.

Lemma round_both sx v m e : (0 < m)%Z -> v == inject_Z m * P e -> moderate v ->
  exists p e', binary_round_aux prec emax sx m e loc_Exact = S754_finite sx p e' /\ (Zpos p < 2 ^ 53)%Z /\ inject_Z (Zpos p) * P e' <= (1 + ulp) * v /\
    (v <= inject_Z (Zpos p) * P e' \/ (2 ^ 52 <= Zpos p)%Z /\ v <= (inject_Z (Zpos p) + (1 # 2)) * P e').
Proof.
  intros Hm HL HM. destruct (round_half sx v m e Hm HL HM) as (p & e' & E1 & HP & HB). destruct (round_close sx v m e loc_Exact Hm HL HM) as (p2 & e2 & E2 & _ & _ & HU).
  rewrite E1 in E2. injection E2 as <- <-. exists p, e'. auto.
Qed.

(** ** Products and sums *)
Definition unit : Q := 1 # 9007199254740992.
Definition hunit : Q := 1 # 18014398509481984.
Lemma mul_low f x g y : exactly false f x -> exactly false g y -> moderate (x * y) -> exists w, exactly false (f_mul f g) w /\ x * y <= (1 + unit) * w /\ w <= (1 + ulp) * (x * y).
Proof.
  intros (p & e & -> & _ & HX) (p2 & e2 & -> & _ & HY) HM. unfold f_mul, SFmul. cbn [xorb].
  assert (HW : x * y == inject_Z (Zpos (p * p2)) * P (e + e2)). { rewrite Pos2Z.inj_mul, inject_Z_mult, P_plus, <- HX, <- HY. ring. }
  destruct (round_both false (x * y) (Zpos (p * p2)) (e + e2) ltac:(lia) HW HM) as (r & e' & -> & Hr & HU & HB). set (w := inject_Z (Zpos r) * P e') in *. exists w. split; [exists r, e'; split; [reflexivity|split; [exact Hr|reflexivity]]|]. split; [|exact HU]. clear HU.
  pose proof (P_pos e') as HP. assert (0 < w) by (unfold w; apply Qmult_lt_0_compat; [reflexivity|exact HP]). destruct HB as [HB|[HB1 HB2]].
  - unfold unit, hunit. nra.
  - assert (HS : (1 # 2) * P e' <= unit * w). { pose proof (Accuracy.inj_le _ _ HB1) as H1. change (inject_Z (2 ^ 52)) with (4503599627370496 # 1) in H1. unfold unit, hunit, w. nra. }
    eapply Qle_trans; [exact HB2|]. rewrite Qmult_plus_distr_l. fold w. lra.
Qed.
(** A sum that is within half a unit of an integer rounds to at least this integer. *)
Lemma add_low f x g y n : exactly false f x -> exactly false g y -> moderate (x + y) -> 0 < x -> 0 < y -> (1 <= n < 2 ^ 40)%Z -> inject_Z n * (1 - hunit) < x + y ->
  exists w, exactly false (f_add f g) w /\ inject_Z n <= w /\ w <= (1 + ulp) * (x + y).
Proof.
  intros HF HG HM Hx Hy Hn HB. destruct (add_sum _ _ _ _ _ _ HF HG) as (z & e & -> & HZ & _). cbv iota in HZ. set (v := x + y) in *.
  assert (Hz : (0 < z)%Z). { assert (0 < v) by (unfold v; lra). pose proof (P_pos e). destruct (Z.ltb_spec 0 z); [assumption|]. pose proof (Accuracy.inj_le z 0 ltac:(lia)) as H2. change (inject_Z 0) with 0 in H2. nra. }
  destruct z as [|p|p]; try lia. cbn [binary_normalize]. unfold binary_round. pose proof (shl_align_spec p e (fexp prec emax (Zpos (digits2_pos p) + e))) as HS. destruct (shl_align _ _ _) as [m1 e1]. destruct HS as [He Hm1].
  assert (HV : v == inject_Z (Zpos m1) * P e1). { rewrite <- HZ, Hm1, inject_Z_mult, <- P_Z by lia. rewrite <- Qmult_assoc, <- P_plus. replace (e - e1 + e1)%Z with e by lia. reflexivity. }
  destruct (round_both false v (Zpos m1) e1 ltac:(lia) HV HM) as (r & e' & -> & Hr & HU & HH). exists (inject_Z (Zpos r) * P e'). split; [exists r, e'; split; [reflexivity|split; [exact Hr|reflexivity]]|]. split; [|exact HU]. clear HU.
  pose proof (P_pos e') as HP. destruct (Qlt_le_dec (inject_Z (Zpos r) * P e') (inject_Z n)) as [HLt|]; [exfalso|assumption].
  assert (In : 1 <= inject_Z n /\ inject_Z n <= 1099511627776 # 1) by (split; [apply (Accuracy.inj_le 1 n); lia|apply (Accuracy.inj_le n (2 ^ 40)); lia]).
  destruct (Z.leb_spec 0 e') as [HE|HE].
  - rewrite (P_Z e' HE), <- inject_Z_mult, <- Zlt_Qlt in HLt. destruct HH as [HH|[HH1 HH2]].
    + rewrite (P_Z e' HE), <- inject_Z_mult in HH. pose proof (Accuracy.inj_le (Zpos r * 2 ^ e') (n - 1) ltac:(lia)) as H1. unfold Z.sub in H1. rewrite inject_Z_plus in H1. change (inject_Z (- (1))) with (- (1)) in H1. unfold unit, hunit in HB. lra.
    + pose proof (pow2_pos e' HE). nia.
  - assert (HV2 : v <= (inject_Z (Zpos r) + (1 # 2)) * P e') by (destruct HH as [HH|[_ HH]]; [nra|exact HH]). clear HH.
    assert (HI : P e' * P (- e') == 1) by (rewrite <- P_plus; replace (e' + - e')%Z with 0%Z by lia; reflexivity).
    pose proof (P_pos (- e')) as HP'. rewrite (P_Z (- e')) in HI, HP' by lia. set (N := (n * 2 ^ (- e'))%Z).
    assert (HN : inject_Z n == inject_Z N * P e'). { unfold N. rewrite inject_Z_mult, <- Qmult_assoc, (Qmult_comm (inject_Z (2 ^ - e'))), HI. ring. }
    assert (H1 : (Zpos r < N)%Z). { rewrite Zlt_Qlt. rewrite HN in HLt. apply (Qmult_lt_r _ _ (P e') HP). exact HLt. }
    assert (H2 : inject_Z N * (1 - hunit) < inject_Z (Zpos r) + (1 # 2)).
    { apply (Qmult_lt_r _ _ (P e') HP). eapply Qlt_le_trans; [|exact HV2]. eapply Qle_lt_trans; [|exact HB]. rewrite HN. apply Qle_lteq. right. ring. }
    assert (H3 : (N <= 2 ^ 53)%Z).
    { destruct (Z.leb_spec N (2 ^ 53)) as [|HG']; [assumption|exfalso]. pose proof (Accuracy.inj_le (2 ^ 53 + 1) N ltac:(lia)) as A1. pose proof (Accuracy.inj_le (Zpos r) (2 ^ 53 - 1) ltac:(lia)) as A2.
      change (inject_Z (2 ^ 53 + 1)) with (9007199254740993 # 1) in A1. change (inject_Z (2 ^ 53 - 1)) with (9007199254740991 # 1) in A2. unfold unit, hunit in H2. lra. }
    pose proof (Accuracy.inj_le _ _ H3) as A1. pose proof (Accuracy.inj_le (Zpos r + 1) N ltac:(lia)) as A2. rewrite inject_Z_plus in A2. change (inject_Z 1) with 1 in A2. change (inject_Z (2 ^ 53)) with (9007199254740992 # 1) in A1. unfold unit, hunit in H2. lra.
Qed.

(** ** The moving average *)
Lemma within_exactly N f w : within N f -> exactly false f w -> w <= inject_Z N.
Proof.
  intros HW (p & e & -> & _ & <-). cbn [within] in HW. unfold at_most in HW. destruct (Z.leb_spec 0 e) as [HE|HE].
  - rewrite (Z.max_l 0 (- e)), (Z.max_r 0 e), Z.mul_1_r in HW by lia. rewrite (P_Z e HE), <- inject_Z_mult. now apply Accuracy.inj_le.
  - rewrite (Z.max_r 0 (- e)), (Z.max_l 0 e), Z.mul_1_r in HW by lia. apply Accuracy.inj_le in HW. rewrite inject_Z_mult, <- P_Z in HW by lia.
    assert (HI : P (- e) * P e == 1) by (rewrite <- P_plus; replace (- e + e)%Z with 0%Z by lia; reflexivity). pose proof (mul_le _ _ (P e) (P_pos e) HW) as H. rewrite <- Qmult_assoc, HI, Qmult_1_r in H. exact H.
Qed.
Lemma exactly_pos f w : exactly false f w -> 0 < w.
Proof. intros (p & e & _ & _ & <-). apply Qmult_lt_0_compat; [reflexivity|apply P_pos]. Qed.
Lemma moderate_small v : (1 # 8) <= v -> v <= 17179869184 -> moderate v.
Proof. intros H1 H2. split; [eapply Qle_trans; [|exact H1]; change (1 # 8) with (P (-3)); apply P_mono; lia|eapply Qle_trans; [exact H2|]; change 17179869184 with (P 34); apply P_mono; lia]. Qed.
Definition alpha : Q := 5998794703657501 # 18014398509481984.
Definition beta : Q := 12015603805824484 # 18014398509481984.
(** The error allowed above. *)
Definition slack : Q := 1 + (1 # 281474976710656).
Lemma step_low n h x avg a : (1 <= n)%Z -> (n <= x < 2 ^ 32)%Z -> (x <= h < 2 ^ 32)%Z -> exactly false avg a -> within (2 ^ 33) avg -> inject_Z n <= a -> a <= slack * inject_Z h ->
  exists w, exactly false (f_add (f_mul f_0_333 (f_of_Z x)) (f_mul (f_sub (f_of_Z 1) f_0_333) avg)) w /\ inject_Z n <= w /\ w <= slack * inject_Z h.
Proof.
  intros Hn Hx Hh HA HW HL HHi. rewrite beta_value, alpha_value. pose proof (within_exactly _ _ _ HW HA) as HU. change (inject_Z (2 ^ 33)) with 8589934592 in HU.
  assert (E53 : (2 ^ 32 < 2 ^ 53)%Z) by reflexivity. assert (HX := exactly_of_Z x ltac:(lia)). set (X := inject_Z x) in *.
  assert (N1 : 1 <= inject_Z n) by (apply (Accuracy.inj_le 1 n); lia). assert (N2 : inject_Z n <= X) by (apply Accuracy.inj_le; lia). assert (N3 : X <= 4294967296) by (apply (Accuracy.inj_le x (2 ^ 32)); lia).
  assert (FA : exactly false (S754_finite false 5998794703657501 (-54)) alpha) by (exists 5998794703657501%positive, (-54)%Z; repeat split).
  assert (FB : exactly false (S754_finite false 6007801902912242 (-53)) beta) by (exists 6007801902912242%positive, (-53)%Z; repeat split).
  destruct (mul_low _ _ _ _ FA HX) as (u & HU1 & HU2 & HU4); [apply moderate_small; unfold alpha; lra|].
  destruct (mul_low _ _ _ _ FB HA) as (w & HW1 & HW2 & HW4); [apply moderate_small; unfold beta; lra|].
  assert (Wu : within (2 ^ 33 / 4) (f_mul (S754_finite false 5998794703657501 (-54)) (f_of_Z x))) by (apply (within_mul (2 ^ 32) _ false 5998794703657501 54); [split; reflexivity|lia|discriminate|apply within_of_Z; lia]).
  assert (Ww : within (3 * (2 ^ 33 / 4)) (f_mul (S754_finite false 6007801902912242 (-53)) avg)) by (apply (within_mul (2 ^ 33) _ false 6007801902912242 53); [split; reflexivity|lia|discriminate|exact HW]).
  pose proof (within_exactly _ _ _ Wu HU1) as U3. pose proof (within_exactly _ _ _ Ww HW1) as W3. change (inject_Z (2 ^ 33 / 4)) with 2147483648 in U3. change (inject_Z (3 * (2 ^ 33 / 4))) with 6442450944 in W3.
  pose proof (exactly_pos _ _ HU1). pose proof (exactly_pos _ _ HW1).
  assert (HS : inject_Z n * (1 + hunit) <= (1 + unit) * (u + w)). { unfold alpha, beta, unit, hunit in *. lra. }
  assert (N4 : X <= inject_Z h) by (apply Accuracy.inj_le; lia).
  destruct (add_low _ u _ w n HU1 HW1) as (r & HR1 & HR2 & HR3); [|assumption|assumption|lia| |exists r; split; [exact HR1|split; [exact HR2|]]].
  - apply moderate_small; [|lra]. unfold unit, hunit in HS. lra.
  - apply (Qmult_lt_l _ _ (1 + unit)); [reflexivity|]. eapply Qlt_le_trans; [|exact HS]. unfold unit, hunit. lra.
  - unfold slack, alpha, beta, ulp in *. lra.
Qed.
Lemma step_within x avg : (- 2 ^ 32 < x < 2 ^ 32)%Z -> within (2 ^ 33) avg -> within (2 ^ 33) (f_add (f_mul f_0_333 (f_of_Z x)) (f_mul (f_sub (f_of_Z 1) f_0_333) avg)).
Proof.
  intros Hx Hg. rewrite beta_value, alpha_value. change (2 ^ 33)%Z with (2 ^ 33 / 4 + 3 * (2 ^ 33 / 4))%Z. apply within_add; [reflexivity..| |].
  - apply (within_mul (2 ^ 32) _ false 5998794703657501 54); [split; reflexivity|lia|discriminate|]. apply within_of_Z; [split; reflexivity|lia].
  - apply (within_mul (2 ^ 33) _ false 6007801902912242 53); [split; reflexivity|lia|discriminate|exact Hg].
Qed.
Local Open Scope Z_scope.
Lemma exactly_trunc n f w : 0 <= n < 2 ^ 53 -> exactly false f w -> (inject_Z n <= w)%Q -> within (2 ^ 33) f -> n <= f_to_i64 f.
Proof.
  intros Hn (p & e & -> & _ & <-) H HW. cbn [within] in HW. apply trunc_at_most in HW. 
  assert (n <= f_trunc false p e); [|unfold f_to_i64, f_to_int; change (2 ^ 63) with 9223372036854775808; change (2 ^ 33) with 8589934592 in HW; lia].
  apply trunc_at_least. unfold at_least. destruct (Z.leb_spec 0 e) as [HE|HE].
  - rewrite (Z.max_l 0 (- e)), (Z.max_r 0 e), Z.mul_1_r by lia. rewrite (P_Z e HE), <- inject_Z_mult, <- Zle_Qle in H. exact H.
  - rewrite (Z.max_r 0 (- e)), (Z.max_l 0 e), Z.mul_1_r by lia. rewrite Zle_Qle, inject_Z_mult, <- P_Z by lia.
    assert (HI : (P e * P (- e) == 1)%Q) by (rewrite <- P_plus; replace (e + - e)%Z with 0%Z by lia; reflexivity). pose proof (mul_le _ _ (P (- e)) (P_pos (- e)) H) as H1. rewrite <- Qmult_assoc, HI, Qmult_1_r in H1. exact H1.
Qed.
Lemma exactly_floor h f w : 0 < h < 2 ^ 32 -> exactly false f w -> (w <= slack * inject_Z h)%Q -> f_to_i64 f <= h.
Proof.
  intros Hh (p & e & -> & _ & <-) H. assert (f_trunc false p e <= h); [|unfold f_to_i64, f_to_int; change (2 ^ 63) with 9223372036854775808; change (2 ^ 32) with 4294967296 in Hh; lia].
  assert (HT : (inject_Z (f_trunc false p e) <= inject_Z (Zpos p) * P e)%Q).
  { unfold f_trunc. destruct (Z.leb_spec 0 e) as [HE|HE].
    - rewrite (P_Z e HE), <- inject_Z_mult. apply Qle_refl.
    - assert (HI : (P (- e) * P e == 1)%Q) by (rewrite <- P_plus; replace (- e + e)%Z with 0%Z by lia; reflexivity).
      pose proof (Z.mul_div_le (Zpos p) (2 ^ (- e)) (pow2_pos (- e) ltac:(lia))) as H1. rewrite Zle_Qle, inject_Z_mult, <- P_Z in H1 by lia.
      pose proof (mul_le _ _ (P e) (P_pos e) H1) as H2. rewrite (Qmult_comm (P (- e))), <- Qmult_assoc, HI, Qmult_1_r in H2. exact H2. }
  assert (HL : (inject_Z (f_trunc false p e) < inject_Z (h + 1))%Q).
  { eapply Qle_lt_trans; [exact HT|]. eapply Qle_lt_trans; [exact H|]. rewrite inject_Z_plus. change (inject_Z 1) with 1%Q. pose proof (Accuracy.inj_le h (2 ^ 32) ltac:(lia)) as H1. change (inject_Z (2 ^ 32)) with (4294967296 # 1)%Q in H1. unfold slack. lra. }
  rewrite <- Zlt_Qlt in HL. lia.
Qed.
(** The average of samples between [n >= 1] and [h] is between [n] and [h]. *)
Lemma ewma_between n h l : 1 <= n -> h < 2 ^ 32 -> l <> [] -> Forall (fun d => n <= d <= h) l -> n <= f_to_i64 (ewma l f_0_333) <= h.
Proof.
  intros Hn Hh HL H. destruct H as [|x l Hx H]; [congruence|]. unfold ewma. assert (E53 : 2 ^ 33 < 2 ^ 53) by reflexivity. assert (E33 : 2 ^ 33 = 2 * 2 ^ 32) by reflexivity. assert (HP : 0 < 2 ^ 32) by reflexivity.
  assert (HX : within (2 ^ 33) (f_of_Z x)) by (apply within_of_Z; lia).
  assert (HE : exists w, exactly false (f_of_Z x) w /\ (inject_Z n <= w)%Q /\ (w <= slack * inject_Z h)%Q).
  { exists (inject_Z x). split; [apply exactly_of_Z; lia|]. split; [apply Accuracy.inj_le; lia|]. pose proof (Accuracy.inj_le x h ltac:(lia)). pose proof (Accuracy.inj_le 0 h ltac:(lia)) as H1. change (inject_Z 0) with 0%Q in H1. unfold slack. lra. }
  assert (Hn2 : n <= h) by lia. revert HX HE. generalize (f_of_Z x). clear x Hx HL. induction H as [|x l Hx H IH]; intros g Hg (w & HW & Hw1 & Hw2); cbn [fold_left].
  - split; [apply (exactly_trunc n g w); [lia|exact HW|exact Hw1|exact Hg]|apply (exactly_floor h g w); [lia|exact HW|exact Hw2]].
  - apply IH; [apply step_within; [lia|exact Hg]|]. apply (step_low n h x g w); [lia|lia|lia|exact HW|exact Hg|exact Hw1|exact Hw2].
Qed.

(** ** Samples of zero *)
(** The value of a finite number that is not negative. *)
Definition val (f : f64) (w : Q) : Prop :=
  match f with S754_zero _ => (w == 0)%Q | S754_finite false p e => (w == inject_Z (Zpos p) * P e)%Q | _ => False end.
Local Open Scope Q_scope.
Definition tiny : Q := 1 # 1152921504606846976.
Lemma tiny_P : P (-1074) <= tiny. Proof. change tiny with (P (-60)). apply P_mono. lia. Qed.
Lemma val_nonneg f w : val f w -> 0 <= w.
Proof. destruct f as [s|s| |[] p e]; cbn [val]; intros H; try contradiction; rewrite H; [apply Qle_refl|]. apply Qlt_le_weak, Qmult_lt_0_compat; [reflexivity|apply P_pos]. Qed.
Lemma round_up N v m e : (0 < m)%Z -> v == inject_Z m * P e -> within N (binary_round_aux prec emax false m e loc_Exact) ->
  exists w, val (binary_round_aux prec emax false m e loc_Exact) w /\ w <= (1 + ulp) * v + tiny.
Proof.
  intros Hm HL. destruct (Zdigits2_bounds m Hm) as [[HD1 HD2] HD3]. set (d := Zdigits2 m) in *. assert (HPe := P_pos e).
  destruct (round_aux_half false m e ltac:(lia)) as (k1 & k2 & r & Hk1 & Hr & _ & Hk2 & ->). fold d in Hk1. rewrite fexp64_eq in Hk1, Hk2.
  assert (HK0 : (0 <= k1)%Z) by (clear - Hk1; lia). pose proof (pow2_pos k1 HK0) as HP1. set (E := (e + k1)%Z) in *. assert (HPE := P_pos E).
  assert (HQ1 : inject_Z (m / 2 ^ k1) * P E <= v).
  { rewrite HL. unfold E. rewrite P_plus, (P_Z k1) by lia. pose proof (Accuracy.inj_le (m / 2 ^ k1 * 2 ^ k1) m ltac:(pose proof (Z.div_mod m (2 ^ k1) ltac:(lia)); pose proof (Z.mod_pos_bound m (2 ^ k1) HP1); nia)) as H. rewrite inject_Z_mult in H. rewrite (Qmult_comm (P e)), Qmult_assoc. apply mul_le; [exact HPe|exact H]. }
  assert (V0 : 0 < v) by (rewrite HL; apply Qmult_lt_0_compat; [rewrite <- (Zlt_Qlt 0); exact Hm|exact HPe]).
  assert (HRV : inject_Z r * P E <= (1 + ulp) * v + tiny).
  { destruct (m mod 2 ^ k1 =? 0)%Z eqn:EX.
    - assert (r = m / 2 ^ k1)%Z by lia. subst r. unfold ulp, tiny. lra.
    - assert (HK1 : k1 <> 0%Z) by (intros ->; rewrite Z.mod_1_r in EX; discriminate).
      assert (HU : P E <= ulp * v + tiny).
      { destruct (Z.leb_spec E (-1074)) as [HE|HE].
        - apply P_mono in HE. pose proof tiny_P. unfold ulp. lra.
        - assert (HEd : E = (d - 1 + e + -52)%Z) by (clear - Hk1 HK1 HE; unfold E in *; lia). rewrite HEd, P_plus. rewrite ulp_P.
          assert (P (d - 1 + e) <= v). { rewrite HL, P_plus, (P_Z (d - 1)) by lia. apply mul_le; [exact HPe|apply Accuracy.inj_le; exact HD1]. }
          pose proof (P_pos (-52)). unfold tiny. nra. }
      pose proof (Accuracy.inj_le r (m / 2 ^ k1 + 1) ltac:(lia)) as H. rewrite inject_Z_plus in H. change (inject_Z 1) with 1 in H. pose proof (mul_le _ _ _ HPE H) as H2. rewrite Qmult_plus_distr_l, Qmult_1_l in H2. lra. }
  assert (HK2 : (0 <= k2)%Z) by (clear - Hk2; lia). pose proof (pow2_pos k2 HK2) as HP2.
  assert (HQ : inject_Z (r / 2 ^ k2) * P (E + k2) <= inject_Z r * P E).
  { rewrite P_plus, (P_Z k2) by lia. pose proof (Z.mul_div_le r (2 ^ k2) HP2) as H. rewrite Zle_Qle, inject_Z_mult in H. rewrite (Qmult_comm (P E)), Qmult_assoc. apply mul_le; [exact HPE|]. rewrite Qmult_comm. exact H. }
  assert (HT : 0 < tiny) by reflexivity. assert (HUL : 0 < ulp) by reflexivity.
  destruct (r / 2 ^ k2)%Z as [|p|p]; [|destruct (_ <=? _)%Z|]; cbn [within val]; intros HW; try contradiction.
  - exists 0. split; [reflexivity|]. nra.
  - eexists. split; [reflexivity|]. lra.
Qed.
Lemma mul_up N f x g y : val f x -> val g y -> within N (f_mul f g) -> exists w, val (f_mul f g) w /\ w <= (1 + ulp) * (x * y) + tiny.
Proof.
  intros HX HY. assert (X0 := val_nonneg _ _ HX). assert (Y0 := val_nonneg _ _ HY). assert (Z0 : 0 <= (1 + ulp) * (x * y) + tiny) by (assert (0 <= x * y) by nra; unfold ulp, tiny; lra).
  unfold f_mul. destruct f as [s|s| |[] p e], g as [s2|s2| |[] p2 e2]; try contradiction; cbn [SFmul xorb]; try (intros _; exists 0; split; [reflexivity|exact Z0]).
  cbn [val] in HX, HY. apply round_up; [lia|]. rewrite HX, HY, Pos2Z.inj_mul, inject_Z_mult, P_plus. ring.
Qed.
Lemma add_up N f x g y : val f x -> val g y -> within N (f_add f g) -> exists w, val (f_add f g) w /\ w <= (1 + ulp) * (x + y) + tiny.
Proof.
  intros HX HY. assert (X0 := val_nonneg _ _ HX). assert (Y0 := val_nonneg _ _ HY). assert (Z0 : x + y <= (1 + ulp) * (x + y) + tiny) by (unfold ulp, tiny; lra).
  unfold f_add. destruct f as [s|s| |[] p e], g as [s2|s2| |[] p2 e2]; try contradiction; cbn [SFadd].
  - destruct (Bool.eqb s s2); intros _; (exists 0; split; [reflexivity|]); cbn [val] in *; lra.
  - intros _. exists y. split; [exact HY|]. cbn [val] in HX. lra.
  - intros _. exists x. split; [exact HX|]. cbn [val] in HY. lra.
  - cbn [val cond_Zopp] in *. rewrite !shl_align_fst by lia. set (ez := Z.min e e2). pose proof (pow2_pos (e - ez) ltac:(lia)). pose proof (pow2_pos (e2 - ez) ltac:(lia)).
    assert (HS : inject_Z (Zpos p * 2 ^ (e - ez) + Zpos p2 * 2 ^ (e2 - ez)) * P ez == x + y).
    { rewrite HX, HY, inject_Z_plus, !inject_Z_mult, <- !P_Z, Qmult_plus_distr_l, <- !Qmult_assoc, <- !P_plus by lia. replace (e - ez + ez)%Z with e by lia. replace (e2 - ez + ez)%Z with e2 by lia. reflexivity. }
    destruct (Zpos p * 2 ^ (e - ez) + Zpos p2 * 2 ^ (e2 - ez))%Z as [|q|q] eqn:EQ; [nia| |nia]. cbn [binary_normalize]. unfold binary_round.
    pose proof (shl_align_spec q ez (fexp prec emax (Zpos (digits2_pos q) + ez))) as HA. destruct (shl_align _ _ _) as [m1 e1]. destruct HA as [HA1 HA2].
    apply round_up; [lia|]. rewrite <- HS, HA2, inject_Z_mult, <- P_Z by lia. rewrite <- Qmult_assoc, <- P_plus. replace (ez - e1 + e1)%Z with ez by lia. reflexivity.
Qed.
Lemma val_of_Z x : (0 <= x < 2 ^ 53)%Z -> val (f_of_Z x) (inject_Z x).
Proof.
  intros Hx. destruct (Z.eq_dec x 0) as [->|H0]; [reflexivity|]. destruct (exactly_of_Z x ltac:(lia)) as (p & e & -> & _ & H). cbn [val]. now rewrite H.
Qed.
Lemma step_up h x avg a : (1 <= h < 2 ^ 32)%Z -> (0 <= x <= h)%Z -> val avg a -> within (2 ^ 33) avg -> a <= slack * inject_Z h ->
  exists w, val (f_add (f_mul f_0_333 (f_of_Z x)) (f_mul (f_sub (f_of_Z 1) f_0_333) avg)) w /\ w <= slack * inject_Z h.
Proof.
  intros Hh Hx HA HW HL. pose proof (step_within x avg ltac:(lia) HW) as HS. revert HS. rewrite beta_value, alpha_value. intros HS.
  assert (E53 : (2 ^ 32 < 2 ^ 53)%Z) by reflexivity. assert (HX := val_of_Z x ltac:(lia)). set (X := inject_Z x) in *.
  assert (N1 : 1 <= inject_Z h) by (apply (Accuracy.inj_le 1 h); lia). assert (N2 : X <= inject_Z h) by (apply Accuracy.inj_le; lia).
  assert (FA : val (S754_finite false 5998794703657501 (-54)) alpha) by reflexivity. assert (FB : val (S754_finite false 6007801902912242 (-53)) beta) by reflexivity.
  assert (Wu : within (2 ^ 33 / 4) (f_mul (S754_finite false 5998794703657501 (-54)) (f_of_Z x))) by (apply (within_mul (2 ^ 32) _ false 5998794703657501 54); [split; reflexivity|lia|discriminate|apply within_of_Z; lia]).
  assert (Ww : within (3 * (2 ^ 33 / 4)) (f_mul (S754_finite false 6007801902912242 (-53)) avg)) by (apply (within_mul (2 ^ 33) _ false 6007801902912242 53); [split; reflexivity|lia|discriminate|exact HW]).
  destruct (mul_up _ _ _ _ _ FA HX Wu) as (u & HU1 & HU2). destruct (mul_up _ _ _ _ _ FB HA Ww) as (w & HW1 & HW2).
  destruct (add_up _ _ _ _ _ HU1 HW1 HS) as (r & HR1 & HR2). exists r. split; [exact HR1|]. unfold slack, alpha, beta, ulp, tiny in *. lra.
Qed.
Local Open Scope Z_scope.
Lemma val_floor h f w : 0 < h < 2 ^ 32 -> val f w -> (w <= slack * inject_Z h)%Q -> 0 <= f_to_i64 f <= h.
Proof.
  intros Hh HV H. destruct f as [s|s| |[] p e]; try contradiction; cbn [val] in HV; [unfold f_to_i64, f_to_int; lia|].
  assert (HT0 : 0 <= f_trunc false p e). { unfold f_trunc. destruct (Z.leb_spec 0 e); [pose proof (pow2_pos e ltac:(lia)); nia|apply Z.div_pos; [lia|apply pow2_pos; lia]]. }
  assert (f_trunc false p e <= h); [|unfold f_to_i64, f_to_int; change (2 ^ 63) with 9223372036854775808; change (2 ^ 32) with 4294967296 in Hh; lia].
  assert (HT : (inject_Z (f_trunc false p e) <= w)%Q).
  { rewrite HV. unfold f_trunc. destruct (Z.leb_spec 0 e) as [HE|HE].
    - rewrite (P_Z e HE), <- inject_Z_mult. apply Qle_refl.
    - assert (HI : (P (- e) * P e == 1)%Q) by (rewrite <- P_plus; replace (- e + e)%Z with 0%Z by lia; reflexivity).
      pose proof (Z.mul_div_le (Zpos p) (2 ^ (- e)) (pow2_pos (- e) ltac:(lia))) as H1. rewrite Zle_Qle, inject_Z_mult, <- P_Z in H1 by lia.
      pose proof (mul_le _ _ (P e) (P_pos e) H1) as H2. rewrite (Qmult_comm (P (- e))), <- Qmult_assoc, HI, Qmult_1_r in H2. exact H2. }
  assert (HL : (inject_Z (f_trunc false p e) < inject_Z (h + 1))%Q).
  { eapply Qle_lt_trans; [exact HT|]. eapply Qle_lt_trans; [exact H|]. rewrite inject_Z_plus. change (inject_Z 1) with 1%Q. pose proof (Accuracy.inj_le h (2 ^ 32) ltac:(lia)) as H1. change (inject_Z (2 ^ 32)) with (4294967296 # 1)%Q in H1. unfold slack. lra. }
  rewrite <- Zlt_Qlt in HL. lia.
Qed.
Lemma ewma_upto h l : 1 <= h < 2 ^ 32 -> l <> [] -> Forall (fun d => 0 <= d <= h) l -> 0 <= f_to_i64 (ewma l f_0_333) <= h.
Proof.
  intros Hh HL H. destruct H as [|x l Hx H]; [congruence|]. unfold ewma. assert (E53 : 2 ^ 33 < 2 ^ 53) by reflexivity. assert (E33 : 2 ^ 33 = 2 * 2 ^ 32) by reflexivity. assert (HP : 0 < 2 ^ 32) by reflexivity.
  assert (HX : within (2 ^ 33) (f_of_Z x)) by (apply within_of_Z; lia).
  assert (HE : exists w, val (f_of_Z x) w /\ (w <= slack * inject_Z h)%Q).
  { exists (inject_Z x). split; [apply val_of_Z; lia|]. pose proof (Accuracy.inj_le x h ltac:(lia)). pose proof (Accuracy.inj_le 0 h ltac:(lia)) as H1. change (inject_Z 0) with 0%Q in H1. unfold slack. lra. }
  revert HX HE. generalize (f_of_Z x). clear x Hx HL. induction H as [|x l Hx H IH]; intros g Hg (w & HW & Hw); cbn [fold_left].
  - apply (val_floor h g w); [lia|exact HW|exact Hw].
  - apply IH; [apply step_within; [lia|exact Hg]|]. apply (step_up h x g w); [lia|lia|exact HW|exact Hg|exact Hw].
Qed.
Lemma ewma_zero l : Forall (fun d => d = 0) l -> f_to_i64 (ewma l f_0_333) = 0.
Proof.
  intros H. destruct H as [|x l -> H]; [reflexivity|]. unfold ewma. rewrite beta_value, alpha_value. assert (HX : exists s, f_of_Z 0 = S754_zero s) by (eexists; reflexivity). revert HX. generalize (f_of_Z 0).
  induction H as [|x l -> H IH]; intros g [s ->]; cbn [fold_left]; [reflexivity|]. apply IH. destruct s; eexists; reflexivity.
Qed.
(** For every list of delays that are not negative, the average lies between any bounds of the samples. *)
Lemma ewma_range n h l : 0 <= n -> h < 2 ^ 32 -> l <> [] -> Forall (fun d => n <= d <= h) l -> n <= f_to_i64 (ewma l f_0_333) <= h.
Proof.
  intros Hn Hh HL H. destruct (Z.eq_dec n 0) as [->|HN]; [|apply ewma_between; [lia|exact Hh|exact HL|exact H]].
  destruct (Z.leb_spec 1 h) as [H1|H1]; [apply ewma_upto; [lia|exact HL|exact H]|].
  destruct l as [|x l]; [congruence|]. assert (H0 : 0 <= h) by (inversion H; subst; lia). rewrite ewma_zero; [lia|]. eapply Forall_impl; [|exact H]. cbv beta. lia.
Qed.
