(** How far binary64 results are from the exact rational results, proved from the definitions of [SpecFloat] (no axioms). *)
From Verif Require Import Float FloatProofs.
Require Import ZifyBool Lia QArith Qpower Lqa.
Local Open Scope Q_scope.

(** ** Powers of two *)
Definition P (e : Z) : Q := Qpower 2 e.
Lemma two_nz : ~ 2 == 0. Proof. discriminate. Qed.
Lemma P_plus a b : P (a + b) == P a * P b. Proof. apply Qpower_plus, two_nz. Qed.
Lemma P_pos e : 0 < P e.
Proof.
  assert (H : 0 <= P e) by (apply Qpower_pos; discriminate). apply Qle_lteq in H. destruct H as [H|H]; [exact H|].
  exfalso. symmetry in H. exact (Qpower_not_0 2 e two_nz H).
Qed.
Lemma P_Z n : (0 <= n)%Z -> P n == inject_Z (2 ^ n). Proof. intros H. symmetry. apply (Zpower_Qpower 2 n H). Qed.
Lemma P_0 : P 0 == 1. Proof. reflexivity. Qed.
Lemma P_ge1 n : (0 <= n)%Z -> 1 <= P n.
Proof. intros H. rewrite P_Z by exact H. change 1 with (inject_Z 1). rewrite <- Zle_Qle. pose proof (pow2_pos n H). lia. Qed.
Lemma P_mono a b : (a <= b)%Z -> P a <= P b.
Proof. intros H. replace b with (a + (b - a))%Z by lia. rewrite P_plus. pose proof (P_pos a). pose proof (P_ge1 (b - a) ltac:(lia)). nra. Qed.
Lemma P_lt a b : (a < b)%Z -> P a < P b.
Proof.
  intros H. apply Qlt_le_trans with (P (a + 1)); [|apply P_mono; lia]. rewrite P_plus. pose proof (P_pos a). change (P 1) with 2. lra.
Qed.
Lemma P_le_inv a b : P a <= P b -> (a <= b)%Z.
Proof. intros H. destruct (Z.leb_spec a b); [assumption|]. pose proof (P_lt b a ltac:(lia)). lra. Qed.
Lemma inj_pos m : 0 < inject_Z (Zpos m). Proof. reflexivity. Qed.
Lemma inj_le a b : (a <= b)%Z -> inject_Z a <= inject_Z b. Proof. intros H. rewrite <- Zle_Qle. exact H. Qed.

Lemma mul_le a b c : 0 < c -> a <= b -> a * c <= b * c. Proof. intros H1 H2. apply Qmult_le_compat_r; [exact H2|now apply Qlt_le_weak]. Qed.
Lemma P_below (q e : Z) : (1 <= q)%Z -> P e <= inject_Z q * P e.
Proof. intros H. pose proof (mul_le (inject_Z 1) (inject_Z q) (P e) (P_pos e) (inj_le _ _ H)) as H1. change (inject_Z 1) with 1 in H1. now rewrite Qmult_1_l in H1. Qed.

(** ** One rounding *)
Definition ulp : Q := 1 # 4503599627370496.
Lemma ulp_P : ulp == P (-52). Proof. reflexivity. Qed.
Definition moderate (v : Q) : Prop := P (-900) <= v /\ v <= P 900.
(** [l] says where the exact value [v] lies between [m * 2^e] and [(m + 1) * 2^e]. *)
Definition located (v : Q) (m e : Z) (l : location) : Prop :=
  if is_exact l then v == inject_Z m * P e else (2 ^ 52 <= m)%Z /\ inject_Z m * P e <= v /\ v <= inject_Z (m + 1) * P e.
Lemma round_close sx v m e l : (0 < m)%Z -> located v m e l -> moderate v ->
  exists p e', binary_round_aux prec emax sx m e l = S754_finite sx p e' /\ (Zpos p < 2 ^ 53)%Z /\
    (1 - ulp) * v <= inject_Z (Zpos p) * P e' /\ inject_Z (Zpos p) * P e' <= (1 + ulp) * v.
Proof.
  intros Hm HL [HV1 HV2]. destruct (Zdigits2_bounds m Hm) as [[HD1 HD2] HD3]. set (d := Zdigits2 m) in *.
  assert (HM1 : inject_Z m * P e <= v). { unfold located in HL. destruct (is_exact l); [lra|tauto]. }
  assert (HM2 : v <= inject_Z (m + 1) * P e). { unfold located in HL. pose proof (P_pos e). destruct (is_exact l); [|tauto]. rewrite inject_Z_plus. change (inject_Z 1) with 1. nra. }
  assert (HPe := P_pos e).
  (* no underflow *)
  assert (HU : (-902 <= d + e)%Z).
  { destruct (Z.leb_spec (-902) (d + e)); [assumption|exfalso].
    assert (inject_Z (m + 1) * P e <= P (d + e)). { rewrite P_plus, (P_Z d) by lia. apply mul_le; [exact HPe|apply inj_le; lia]. }
    pose proof (P_lt (d + e) (-900) ltac:(lia)) as H1. apply (Qlt_irrefl v). eapply Qle_lt_trans; [exact HM2|]. eapply Qle_lt_trans; [exact H0|]. eapply Qlt_le_trans; [exact H1|exact HV1]. }
  destruct (round_aux_spec sx m e l ltac:(lia)) as (m2 & e2 & (k1 & k2 & Hk1 & r & Hr & Hk2 & Hm2 & He2) & Hm2' & ->). fold d in Hk1. rewrite fexp64_eq in Hk1, Hk2.
  assert (HK : k1 = Z.max 0 (d - 53)) by (clear - Hk1 HU; lia). assert (HK0 : (0 <= k1)%Z) by (clear - HK; lia).
  destruct (is_exact l && (m mod 2 ^ k1 =? 0)%Z) eqn:EX.
  - (* exact *)
    apply andb_true_iff in EX. destruct EX as [EX1 EX2]. unfold located in HL. rewrite EX1 in HL. apply Z.eqb_eq in EX2. pose proof (pow2_pos k1 HK0) as HP1.
    assert (Hrm : (m = r * 2 ^ k1)%Z). { pose proof (Z.div_mod m (2 ^ k1) ltac:(lia)). nia. } assert (Hr0 : (0 < r)%Z) by nia.
    assert (Hr53 : (r < 2 ^ 53)%Z).
    { assert (2 ^ d <= 2 ^ 53 * 2 ^ k1)%Z by (rewrite <- Z.pow_add_r by lia; apply pow2_le; lia). nia. }
    assert (HDr : (Zdigits2 r <= 53)%Z).
    { destruct (Zdigits2_bounds r Hr0) as [[HE1 HE2] HE3]. destruct (Z.leb_spec (Zdigits2 r) 53); [assumption|]. assert (2 ^ 53 <= 2 ^ (Zdigits2 r - 1))%Z by (apply pow2_le; lia). lia. }
    assert (HDr2 : (d <= Zdigits2 r + k1)%Z).
    { destruct (Zdigits2_bounds r Hr0) as [[HE1 HE2] HE3]. destruct (Z.leb_spec d (Zdigits2 r + k1)); [assumption|]. assert (2 ^ (Zdigits2 r + k1) <= 2 ^ (d - 1))%Z by (apply pow2_le; lia). rewrite Z.pow_add_r in H0 by lia. nia. }
    assert (k2 = 0)%Z by lia. subst k2. rewrite H in *. rewrite Z.div_1_r in Hm2. subst m2. destruct r as [|p|p]; try lia.
    assert (HEQ : v == inject_Z (Zpos p) * P e2). { rewrite HL, Hrm, inject_Z_mult, <- P_Z, He2, !P_plus, P_0 by lia. ring. }
    assert (HE : (e2 <= 900)%Z).
    { apply P_le_inv. eapply Qle_trans; [apply (P_below (Zpos p)); lia|]. rewrite <- HEQ. exact HV2. }
    replace (e2 <=? 971)%Z with true by lia. exists p, e2. split; [reflexivity|]. split; [lia|]. clear HV1 HV2. rewrite <- HEQ. assert (0 < v) by (rewrite HEQ; apply Qmult_lt_0_compat; [reflexivity|apply P_pos]). unfold ulp. split; lra.
  - (* inexact *)
    set (q := (m / 2 ^ k1)%Z) in *. pose proof (pow2_pos k1 HK0) as HP1.
    assert (Hq : (2 ^ 52 <= q < 2 ^ 53)%Z).
    { destruct (Z.eq_dec k1 0) as [->|HK1].
      - unfold q. rewrite Z.div_1_r. assert (HE : is_exact l = false). { destruct (is_exact l); [|reflexivity]. rewrite Z.mod_1_r in EX. discriminate. } unfold located in HL. rewrite HE in HL.
        split; [tauto|]. assert (2 ^ d <= 2 ^ 53)%Z by (apply pow2_le; lia). lia.
      - assert (Hkd : k1 = (d - 53)%Z) by (clear - HK HK0 HK1; lia). unfold q. split.
        + apply Z.div_le_lower_bound; [lia|]. rewrite <- Z.pow_add_r by lia. replace (k1 + 52)%Z with (d - 1)%Z by (clear - Hkd; lia). exact HD1.
        + apply Z.div_lt_upper_bound; [lia|]. rewrite <- Z.pow_add_r by lia. replace (k1 + 53)%Z with d by (clear - Hkd; lia). exact HD2. }
    set (E := (e + k1)%Z) in *.
    assert (HQ1 : inject_Z q * P E <= v).
    { eapply Qle_trans; [|exact HM1]. unfold E. rewrite P_plus, (P_Z k1) by lia. pose proof (inj_le (q * 2 ^ k1) m ltac:(pose proof (Z.div_mod m (2 ^ k1) ltac:(lia)); pose proof (Z.mod_pos_bound m (2 ^ k1) HP1); unfold q; nia)) as H. rewrite inject_Z_mult in H. rewrite (Qmult_comm (P e)), Qmult_assoc. apply mul_le; [exact HPe|exact H]. }
    assert (HQ2 : v <= inject_Z (q + 1) * P E).
    { eapply Qle_trans; [exact HM2|]. unfold E. rewrite P_plus, (P_Z k1) by lia. pose proof (inj_le (m + 1) ((q + 1) * 2 ^ k1) ltac:(pose proof (Z.div_mod m (2 ^ k1) ltac:(lia)); pose proof (Z.mod_pos_bound m (2 ^ k1) HP1); unfold q; nia)) as H. rewrite inject_Z_mult in H. rewrite (Qmult_comm (P e)), Qmult_assoc. apply mul_le; [exact HPe|exact H]. }
    assert (HPE := P_pos E).
    assert (HSM : P E <= ulp * v). { pose proof (inj_le (2 ^ 52) q ltac:(lia)) as H. unfold ulp. change (inject_Z (2 ^ 52)) with (4503599627370496 # 1) in H. nra. }
    assert (HEE : (E <= 900)%Z).
    { apply P_le_inv. eapply Qle_trans; [|exact HV2]. eapply Qle_trans; [|exact HQ1]. apply P_below. lia. }
    assert (HEl : (-955 <= E)%Z).
    { destruct (Z.leb_spec (-955) E); [assumption|exfalso]. assert (inject_Z (q + 1) * P E <= P (53 + E)). { rewrite P_plus, (P_Z 53) by lia. apply mul_le; [exact HPE|apply inj_le; lia]. }
      pose proof (P_lt (53 + E) (-900) ltac:(lia)) as H1. apply (Qlt_irrefl v). eapply Qle_lt_trans; [exact HQ2|]. eapply Qle_lt_trans; [exact H0|]. eapply Qlt_le_trans; [exact H1|exact HV1]. }
    clear HV1 HV2.
    assert (HRR : inject_Z r * P E <= (1 + ulp) * v /\ (1 - ulp) * v <= inject_Z r * P E).
    { pose proof (inj_le q r ltac:(lia)). pose proof (inj_le r (q + 1) ltac:(lia)). rewrite inject_Z_plus in *. change (inject_Z 1) with 1 in *. split; nra. }
    assert (Hr' : (2 ^ 52 <= r <= 2 ^ 53)%Z) by (clear - Hr Hq; lia). destruct (Z.eq_dec r (2 ^ 53)) as [HR53|HR53].
    + rewrite HR53 in *. change (Zdigits2 (2 ^ 53)) with 54%Z in Hk2. assert (k2 = 1)%Z by lia. subst k2. rewrite H in *. change (2 ^ 53 / 2 ^ 1)%Z with (Zpos (2 ^ 52)) in Hm2. subst m2.
      replace (e2 <=? 971)%Z with true by lia. exists (2 ^ 52)%positive, e2. split; [reflexivity|]. split; [reflexivity|]. rewrite He2, P_plus. change (P 1) with 2. change (inject_Z (2 ^ 53)) with (2 * inject_Z (Zpos (2 ^ 52))) in HRR. split; nra.
    + assert (HDr : Zdigits2 r = 53%Z) by (apply Zdigits2_unique; [lia|]; change (53 - 1)%Z with 52%Z; lia). rewrite HDr in Hk2. assert (k2 = 0)%Z by lia. subst k2. rewrite H in *. rewrite Z.div_1_r in Hm2. subst m2.
      destruct r as [|p|p]; try lia. replace (e2 <=? 971)%Z with true by lia. exists p, e2. split; [reflexivity|]. split; [lia|]. rewrite He2, Z.add_0_r. tauto.
Qed.

(** ** Several roundings in a row *)
(** [f] has sign [s] and is within [n] roundings of [v > 0]. *)
Definition app (n : nat) (s : bool) (f : f64) (v : Q) : Prop :=
  exists p e, f = S754_finite s p e /\ (Zpos p < 2 ^ 53)%Z /\ Qpower (1 - ulp) (Z.of_nat n) * v <= inject_Z (Zpos p) * P e /\ inject_Z (Zpos p) * P e <= Qpower (1 + ulp) (Z.of_nat n) * v.
Definition exactly (s : bool) (f : f64) (v : Q) : Prop := exists p e, f = S754_finite s p e /\ (Zpos p < 2 ^ 53)%Z /\ inject_Z (Zpos p) * P e == v.
Lemma lo_pos n : 0 < Qpower (1 - ulp) n.
Proof.
  assert (HN : ~ 1 - ulp == 0) by discriminate.
  assert (H : 0 <= Qpower (1 - ulp) n) by (apply Qpower_pos; discriminate). apply Qle_lteq in H. destruct H as [H|H]; [exact H|].
  exfalso. symmetry in H. exact (Qpower_not_0 _ n HN H).
Qed.
Lemma hi_pos n : 0 < Qpower (1 + ulp) n.
Proof.
  assert (HN : ~ 1 + ulp == 0) by discriminate.
  assert (H : 0 <= Qpower (1 + ulp) n) by (apply Qpower_pos; discriminate). apply Qle_lteq in H. destruct H as [H|H]; [exact H|].
  exfalso. symmetry in H. exact (Qpower_not_0 _ n HN H).
Qed.
Lemma lo_succ n : Qpower (1 - ulp) (Z.of_nat (S n)) == (1 - ulp) * Qpower (1 - ulp) (Z.of_nat n).
Proof. rewrite Nat2Z.inj_succ, <- Z.add_1_r, Qpower_plus by discriminate. rewrite Qmult_comm. reflexivity. Qed.
Lemma hi_succ n : Qpower (1 + ulp) (Z.of_nat (S n)) == (1 + ulp) * Qpower (1 + ulp) (Z.of_nat n).
Proof. rewrite Nat2Z.inj_succ, <- Z.add_1_r, Qpower_plus by discriminate. rewrite Qmult_comm. reflexivity. Qed.
(** Rounding an intermediate value [w] that is within [n] roundings of [v]. *)
Lemma app_round n sx v w m e l : (0 < m)%Z -> located w m e l -> moderate w ->
  Qpower (1 - ulp) (Z.of_nat n) * v <= w -> w <= Qpower (1 + ulp) (Z.of_nat n) * v -> app (S n) sx (binary_round_aux prec emax sx m e l) v.
Proof.
  intros Hm HL HM H1 H2. destruct (round_close sx w m e l Hm HL HM) as (p & e' & -> & HP & H3 & H4). exists p, e'. split; [reflexivity|]. split; [exact HP|]. split.
  - rewrite lo_succ. eapply Qle_trans; [|exact H3]. rewrite <- Qmult_assoc, (Qmult_comm (1 - ulp) w), (Qmult_comm (1 - ulp)). apply mul_le; [reflexivity|exact H1].
  - rewrite hi_succ. eapply Qle_trans; [exact H4|]. rewrite <- Qmult_assoc, (Qmult_comm (1 + ulp) w), (Qmult_comm (1 + ulp)). apply mul_le; [reflexivity|exact H2].
Qed.
Lemma app_exact n s f v : app n s f v -> exists w, exactly s f w /\ Qpower (1 - ulp) (Z.of_nat n) * v <= w /\ w <= Qpower (1 + ulp) (Z.of_nat n) * v.
Proof. intros (p & e & -> & HP & H1 & H2). exists (inject_Z (Zpos p) * P e). split; [exists p, e; split; [reflexivity|split; [exact HP|reflexivity]]|tauto]. Qed.
Lemma exactly_of_Z N : (0 < N < 2 ^ 53)%Z -> exactly false (f_of_Z N) (inject_Z N).
Proof.
  intros H. destruct (f_of_Z_exact N H) as (m & e & E & He & Hm & HB). exists m, e. split; [exact E|]. split; [lia|]. rewrite Hm, inject_Z_mult, <- P_Z by lia.
  rewrite <- Qmult_assoc, <- P_plus. replace (- e + e)%Z with 0%Z by lia. rewrite P_0. ring.
Qed.
Lemma moderate_intro a b n v : v == inject_Z a / inject_Z b -> (1 <= a <= 2 ^ 400)%Z -> (1 <= b <= 2 ^ 400)%Z -> (n <= 8)%nat ->
  moderate (Qpower (1 - ulp) (Z.of_nat n) * v) /\ moderate (Qpower (1 + ulp) (Z.of_nat n) * v).
Proof.
  intros HV0 Ha Hb Hn. assert (Ib : 0 < inject_Z b) by (rewrite <- (Zlt_Qlt 0); lia). assert (HIb : 0 < / inject_Z b) by now apply Qinv_lt_0_compat.
  assert (H1 : P (-400) <= v).
  { rewrite HV0. apply Qle_shift_div_l; [exact Ib|]. apply Qle_trans with (P (-400) * P 400); [rewrite !(Qmult_comm (P (-400))); apply mul_le; [apply P_pos|rewrite (P_Z 400) by lia; apply inj_le; lia]|].
    rewrite <- P_plus. change (P (-400 + 400)) with (inject_Z 1). apply inj_le. lia. }
  assert (H2 : v <= P 400).
  { rewrite HV0. apply Qle_shift_div_r; [exact Ib|]. apply Qle_trans with (P 400); [rewrite (P_Z 400) by lia; apply inj_le; lia|]. rewrite Qmult_comm. apply P_below. lia. }
  assert (HV : 0 < v) by (eapply Qlt_le_trans; [apply P_pos|exact H1]).
  assert (HL : P (-1) <= Qpower (1 - ulp) (Z.of_nat n) /\ Qpower (1 - ulp) (Z.of_nat n) <= P 1) by (do 9 (destruct n as [|n]; [split; vm_compute; discriminate|]); lia).
  assert (HH : P (-1) <= Qpower (1 + ulp) (Z.of_nat n) /\ Qpower (1 + ulp) (Z.of_nat n) <= P 1) by (do 9 (destruct n as [|n]; [split; vm_compute; discriminate|]); lia).
  assert (HG : forall c, P (-1) <= c /\ c <= P 1 -> moderate (c * v)).
  { intros c [C1 C2]. assert (HC : 0 < c) by (eapply Qlt_le_trans; [apply P_pos|exact C1]). split.
    - eapply Qle_trans with (P (-1 + -400)); [apply P_mono; lia|]. rewrite P_plus. eapply Qle_trans; [apply mul_le; [apply P_pos|exact C1]|]. rewrite !(Qmult_comm c). now apply mul_le.
    - eapply Qle_trans with (P (1 + 400)); [|apply P_mono; lia]. rewrite P_plus. eapply Qle_trans; [apply mul_le; [exact HV|exact C2]|]. rewrite !(Qmult_comm (P 1)). apply mul_le; [apply P_pos|exact H2]. }
  split; apply HG; assumption.
Qed.
Lemma app_mul n s f v s' g x : app n s f v -> exactly s' g x -> moderate (Qpower (1 - ulp) (Z.of_nat n) * (v * x)) /\ moderate (Qpower (1 + ulp) (Z.of_nat n) * (v * x)) ->
  0 < x -> app (S n) (xorb s s') (f_mul f g) (v * x).
Proof.
  intros HA (p2 & e2 & -> & _ & HX) [[HM1 _] [_ HM2]] Hx. unfold Qdiv in HM1, HM2. rewrite Qmult_assoc in HM1, HM2. destruct HA as (p & e & -> & _ & H1 & H2). unfold f_mul, SFmul.
  set (w := inject_Z (Zpos p) * P e) in *. assert (HW : w * x == inject_Z (Zpos (p * p2)) * P (e + e2)).
  { rewrite Pos2Z.inj_mul, inject_Z_mult, P_plus, <- HX. unfold w. ring. }
  apply (app_round n _ (v * x) (w * x)); [lia|exact HW| | |].
  - split; [eapply Qle_trans; [exact HM1|]|eapply Qle_trans; [|exact HM2]]; apply mul_le; assumption.
  - rewrite Qmult_assoc. apply mul_le; assumption.
  - rewrite Qmult_assoc. apply mul_le; assumption.
Qed.
Lemma located_div m1 e1 m2 e2 : (0 < m1)%Z -> (0 < m2)%Z -> let '(q, e, l) := SFdiv_core_binary prec emax m1 e1 m2 e2 in
  moderate ((inject_Z m1 * P e1) / (inject_Z m2 * P e2)) -> (0 < q)%Z /\ located ((inject_Z m1 * P e1) / (inject_Z m2 * P e2)) q e l.
Proof.
  intros H1 H2. unfold SFdiv_core_binary. fold fexp64. set (e' := Z.min _ _). assert (Hs : (0 <= e1 - e2 - e')%Z) by lia.
  set (m' := match (e1 - e2 - e')%Z with Z0 => m1 | Zpos _ => Z.shiftl m1 (e1 - e2 - e') | Zneg _ => 0%Z end).
  assert (Hm' : m' = (m1 * 2 ^ (e1 - e2 - e'))%Z). { unfold m'. destruct (e1 - e2 - e')%Z eqn:E; [rewrite Z.pow_0_r; lia| |lia]. apply Z.shiftl_mul_pow2. lia. }
  clearbody m'. pose proof (Z_div_mod m' m2 ltac:(lia)) as HD. destruct (Z.div_eucl m' m2) as [q r]. destruct HD as [HD1 HD2]. intros [HV1 HV2].
  set (v := inject_Z m1 * P e1 / (inject_Z m2 * P e2)) in *.
  assert (I2 : 0 < inject_Z m2) by (rewrite <- (Zlt_Qlt 0); exact H2). assert (PE := P_pos e'). assert (PE2 := P_pos e2).
  assert (HV : v * inject_Z m2 == inject_Z m' * P e').
  { unfold v. rewrite Hm', inject_Z_mult, <- P_Z by lia. replace e1 with ((e1 - e2 - e') + e' + e2)%Z at 1 by lia. rewrite !P_plus. field. split; intros HE; [rewrite HE in PE2|rewrite HE in I2]; now apply Qlt_irrefl in PE2 || apply Qlt_irrefl in I2. }
  destruct (Zdigits2_bounds m1 H1) as [[A1 A2] A3]. destruct (Zdigits2_bounds m2 H2) as [[B1 B2] B3]. set (d1 := Zdigits2 m1) in *. set (d2 := Zdigits2 m2) in *.
  (* the exponent of the quotient is above the subnormal range *)
  assert (HL : (-901 <= d1 + e1 - (d2 + e2))%Z).
  { destruct (Z.leb_spec (-901) (d1 + e1 - (d2 + e2))); [assumption|exfalso].
    assert (HQ : v * P (d2 - 1 + e2) <= P (d1 + e1)).
    { rewrite P_plus, (P_Z (d2 - 1)), P_plus, (P_Z d1) by lia. eapply Qle_trans with (inject_Z m1 * P e1); [|apply mul_le; [apply P_pos|apply inj_le; lia]].
      assert (EQ : inject_Z m1 * P e1 == v * (inject_Z m2 * P e2)). { unfold v. field. split; intros HE; [rewrite HE in PE2|rewrite HE in I2]; now apply Qlt_irrefl in PE2 || apply Qlt_irrefl in I2. }
      rewrite EQ, !(Qmult_comm v). apply mul_le; [eapply Qlt_le_trans; [apply P_pos|exact HV1]|]. apply mul_le; [exact PE2|apply inj_le; lia]. }
    apply (Qlt_irrefl (P (d1 + e1))). eapply Qlt_le_trans; [|exact HQ]. eapply Qlt_le_trans with (P (-900 + (d2 - 1 + e2))); [apply P_lt; lia|]. rewrite P_plus. apply mul_le; [apply P_pos|exact HV1]. }
  assert (He' : (e' <= d1 + e1 - (d2 + e2) - 53)%Z). { unfold e'. rewrite fexp64_eq. lia. }
  assert (Hq : (2 ^ 52 <= q)%Z).
  { assert (2 ^ 52 * m2 <= m')%Z; [|nia]. rewrite Hm'. transitivity (2 ^ (52 + d2))%Z; [rewrite Z.pow_add_r by lia; nia|]. transitivity (2 ^ (d1 - 1 + (e1 - e2 - e')))%Z; [apply pow2_le; lia|]. rewrite Z.pow_add_r by lia. pose proof (pow2_pos _ Hs). nia. }
  split; [lia|]. unfold located.
  assert (HEX : is_exact (new_location m2 r) = (r =? 0)%Z).
  { unfold new_location, new_location_even, new_location_odd. destruct (Z.even m2); cbv beta; destruct (Zeq_bool r 0) eqn:EB; cbn [is_exact]; symmetry; ((apply Z.eqb_eq; now apply Zeq_bool_eq) || (apply Z.eqb_neq; now apply Zeq_bool_neq)). }
  rewrite HEX. assert (HC : forall z, (m' <= z * m2)%Z -> v <= inject_Z z * P e').
  { intros z Hz. apply (Qmult_lt_0_le_reg_r _ _ (inject_Z m2) I2). rewrite HV. apply Qle_trans with (inject_Z (z * m2) * P e'); [apply mul_le; [exact PE|now apply inj_le]|]. rewrite inject_Z_mult. apply Qle_lteq. right. ring. }
  assert (HC2 : forall z, (z * m2 <= m')%Z -> inject_Z z * P e' <= v).
  { intros z Hz. apply (Qmult_lt_0_le_reg_r _ _ (inject_Z m2) I2). rewrite HV. apply Qle_trans with (inject_Z (z * m2) * P e'); [|apply mul_le; [exact PE|now apply inj_le]]. rewrite inject_Z_mult. apply Qle_lteq. right. ring. }
  destruct (Z.eqb_spec r 0) as [HR|HR].
  - apply Qle_antisym; [apply HC|apply HC2]; lia.
  - split; [exact Hq|]. split; [apply HC2|apply HC]; lia.
Qed.
Lemma app_div n s f v s' g x : app n s f v -> exactly s' g x -> moderate (Qpower (1 - ulp) (Z.of_nat n) * (v / x)) /\ moderate (Qpower (1 + ulp) (Z.of_nat n) * (v / x)) ->
  0 < x -> app (S n) (xorb s s') (f_div f g) (v / x).
Proof.
  intros HA (p2 & e2 & -> & _ & HX) [[HM1 _] [_ HM2]] Hx. unfold Qdiv in HM1, HM2. rewrite Qmult_assoc in HM1, HM2. destruct HA as (p & e & -> & _ & H1 & H2). unfold f_div, SFdiv.
  pose proof (located_div (Zpos p) e (Zpos p2) e2 ltac:(lia) ltac:(lia)) as HLD. destruct (SFdiv_core_binary _ _ _ _ _ _) as [[q e'] l].
  set (w := inject_Z (Zpos p) * P e) in *. assert (HI : 0 < / x) by now apply Qinv_lt_0_compat.
  assert (HM : moderate (w / (inject_Z (Zpos p2) * P e2))).
  { unfold moderate. rewrite HX. unfold Qdiv. split; [eapply Qle_trans; [exact HM1|]|eapply Qle_trans; [|exact HM2]]; apply mul_le; assumption. }
  destruct (HLD HM) as [Hq HL]. apply (app_round n _ (v / x) _ _ _ _ Hq HL HM); rewrite HX; unfold Qdiv; rewrite Qmult_assoc; apply mul_le; assumption.
Qed.
(** Adding: the exact sum, then one rounding. *)
Lemma normalize_close z e v : z <> 0%Z -> inject_Z (Z.abs z) * P e == v -> moderate v -> app 1 (z <? 0)%Z (binary_normalize prec emax z e false) v.
Proof.
  intros Hz HV HM. assert (HB : forall s p, inject_Z (Zpos p) * P e == v -> app 1 s (binary_round prec emax s p e) v).
  { intros s p HV'. unfold binary_round. pose proof (shl_align_spec p e (fexp prec emax (Zpos (digits2_pos p) + e))) as HS. destruct (shl_align _ _ _) as [m1 e1]. destruct HS as [He Hm1].
    assert (HE1 : (e1 <= e)%Z) by lia.
    apply (app_round 0 s v v); [lia| |exact HM|change (Qpower (1 - ulp) (Z.of_nat 0)) with 1; rewrite Qmult_1_l; apply Qle_refl|change (Qpower (1 + ulp) (Z.of_nat 0)) with 1; rewrite Qmult_1_l; apply Qle_refl].
    unfold located. cbn [is_exact]. rewrite <- HV', Hm1, inject_Z_mult, <- P_Z by lia. rewrite <- Qmult_assoc, <- P_plus. replace (e - e1 + e1)%Z with e by lia. reflexivity. }
  destruct z as [|p|p]; [congruence| |]; cbn [binary_normalize Z.abs] in *; apply HB; exact HV.
Qed.
Lemma add_sum s1 f x s2 g y : exactly s1 f x -> exactly s2 g y -> exists z e, f_add f g = binary_normalize prec emax z e false /\
  inject_Z z * P e == (if s1 then - x else x) + (if s2 then - y else y) /\ forall k, P (k + 53) <= x -> P (k + 53) <= y -> (k <= e)%Z.
Proof.
  intros (p1 & e1 & -> & HP1 & H1) (p2 & e2 & -> & HP2 & H2). unfold f_add, SFadd. eexists; eexists. split; [reflexivity|]. set (ez := Z.min e1 e2). rewrite !shl_align_fst by lia.
  assert (HQ : forall p e, (ez <= e)%Z -> inject_Z (Zpos p * 2 ^ (e - ez)) * P ez == inject_Z (Zpos p) * P e).
  { intros p e H. rewrite inject_Z_mult, <- P_Z by lia. rewrite <- Qmult_assoc, <- P_plus. now replace (e - ez + ez)%Z with e by lia. }
  assert (HC : forall (s : bool) p e, (ez <= e)%Z -> inject_Z (cond_Zopp s (Zpos p * 2 ^ (e - ez))) * P ez == (if s then - (inject_Z (Zpos p) * P e) else inject_Z (Zpos p) * P e)).
  { intros s p e H. destruct s; cbn [cond_Zopp]; [rewrite inject_Z_opp|]; rewrite <- HQ by exact H; ring. }
  split; [rewrite inject_Z_plus, Qmult_plus_distr_l, !HC by lia; destruct s1, s2; rewrite H1, H2; reflexivity|].
  assert (HK : forall k p e x, (Zpos p < 2 ^ 53)%Z -> inject_Z (Zpos p) * P e == x -> P (k + 53) <= x -> (k <= e)%Z).
  { intros k p e x' Hp HE HK. assert (k + 53 <= 53 + e)%Z; [|lia]. apply P_le_inv. rewrite (P_plus 53), (P_Z 53) by lia. eapply Qle_trans; [exact HK|]. rewrite <- HE. apply mul_le; [apply P_pos|apply inj_le; lia]. }
  intros k K1 K2. pose proof (HK _ _ _ _ HP1 H1 K1). pose proof (HK _ _ _ _ HP2 H2 K2). lia.
Qed.
Lemma inj_minus a b c : inject_Z (a - b) * c == inject_Z a * c - inject_Z b * c.
Proof. unfold Z.sub. rewrite inject_Z_plus, inject_Z_opp. ring. Qed.
Lemma sub_sum s1 f x s2 g y : exactly s1 f x -> exactly s2 g y -> exists z e, f_sub f g = binary_normalize prec emax z e false /\
  inject_Z z * P e == (if s1 then - x else x) - (if s2 then - y else y).
Proof.
  intros (p1 & e1 & -> & HP1 & H1) (p2 & e2 & -> & HP2 & H2). unfold f_sub, SFsub. eexists; eexists. split; [reflexivity|]. set (ez := Z.min e1 e2). rewrite !shl_align_fst by lia.
  assert (HQ : forall p e, (ez <= e)%Z -> inject_Z (Zpos p * 2 ^ (e - ez)) * P ez == inject_Z (Zpos p) * P e).
  { intros p e H. rewrite inject_Z_mult, <- P_Z by lia. rewrite <- Qmult_assoc, <- P_plus. now replace (e - ez + ez)%Z with e by lia. }
  assert (HC : forall (s : bool) p e, (ez <= e)%Z -> inject_Z (cond_Zopp s (Zpos p * 2 ^ (e - ez))) * P ez == (if s then - (inject_Z (Zpos p) * P e) else inject_Z (Zpos p) * P e)).
  { intros s p e H. destruct s; cbn [cond_Zopp]; [rewrite inject_Z_opp|]; rewrite <- HQ by exact H; ring. }
  rewrite inj_minus, !HC by lia. destruct s1, s2; rewrite H1, H2; reflexivity.
Qed.
