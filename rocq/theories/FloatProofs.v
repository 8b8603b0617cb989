(** Facts about binary64 arithmetic, proved from the definitions of [SpecFloat] (no axioms). *)
From Verif Require Import Float.
Require Import ZifyBool Lia.
Local Open Scope Z_scope.

(** ** Digits *)
Lemma digits_bounds m : 2 ^ (Zpos (digits2_pos m) - 1) <= Zpos m < 2 ^ Zpos (digits2_pos m).
Proof.
  induction m as [m IH|m IH|]; cbn [digits2_pos]; [| |cbn; lia].
  - rewrite Pos2Z.inj_succ, Z.pow_succ_r by lia. replace (Z.succ (Zpos (digits2_pos m)) - 1) with (Z.succ (Zpos (digits2_pos m) - 1)) by lia. rewrite Z.pow_succ_r by lia. lia.
  - rewrite Pos2Z.inj_succ, Z.pow_succ_r by lia. replace (Z.succ (Zpos (digits2_pos m)) - 1) with (Z.succ (Zpos (digits2_pos m) - 1)) by lia. rewrite Z.pow_succ_r by lia. lia.
Qed.

(** ** Shifting right *)
Definition inexact (r : shr_record) : bool := shr_r r || shr_s r.
Lemma shr_1_spec x : 0 <= shr_m x -> shr_m (shr_1 x) = shr_m x / 2 /\ inexact (shr_1 x) = inexact x || Z.odd (shr_m x).
Proof.
  destruct x as [m r s]. unfold inexact. cbn [shr_m shr_r shr_s]. destruct m as [|[p|p|]|p]; intros H; [| | | |lia]; cbn [shr_1 shr_m shr_r shr_s Z.odd].
  - destruct r, s; auto.
  - split; [|destruct r, s; auto]. change (Zpos p~1) with (2 * Zpos p + 1). rewrite Z.add_comm, Z.mul_comm, Z.div_add by lia. reflexivity.
  - split; [|destruct r, s; auto]. change (Zpos p~0) with (2 * Zpos p). rewrite Z.mul_comm, Z.div_mul by lia. reflexivity.
  - split; [reflexivity|destruct r, s; auto].
Qed.
(** [x] is [m] shifted right by [k] bits. *)
Definition shifted (m : Z) (sticky : bool) (k : Z) (x : shr_record) : Prop :=
  shr_m x = m / 2 ^ k /\ inexact x = sticky || negb (m mod 2 ^ k =? 0).
Lemma shifted_1 m st k x : 0 <= m -> 0 <= k -> shifted m st k x -> shifted m st (k + 1) (shr_1 x).
Proof.
  intros Hm Hk [H1 H2]. assert (H2k : 0 < 2 ^ k) by (apply Z.pow_pos_nonneg; lia).
  assert (HN : 0 <= shr_m x) by (rewrite H1; apply Z.div_pos; lia). destruct (shr_1_spec x HN) as [S1 S2].
  split.
  - rewrite S1, H1, Z.div_div by lia. now rewrite Z.pow_add_r by lia.
  - rewrite S2, H1, H2, <- orb_assoc. f_equal. rewrite Z.pow_add_r, Z.pow_1_r by lia. rewrite Z.rem_mul_r by lia.
    rewrite Zmod_odd. pose proof (Z.mod_pos_bound m (2 ^ k) H2k). destruct (Z.odd (m / 2 ^ k)), (m mod 2 ^ k =? 0) eqn:E; cbn [orb negb]; symmetry; nia.
Qed.
Lemma shifted_iter m st p : 0 <= m -> forall k x, 0 <= k -> shifted m st k x -> shifted m st (k + Zpos p) (SpecFloat.iter_pos shr_1 p x).
Proof.
  intros Hm. induction p as [p IH|p IH|]; intros k x Hk H; cbn [SpecFloat.iter_pos].
  - replace (k + Zpos p~1) with (k + 1 + Zpos p + Zpos p) by lia. apply IH; [lia|]. apply IH; [lia|]. now apply shifted_1.
  - replace (k + Zpos p~0) with (k + Zpos p + Zpos p) by lia. apply IH; [lia|]. now apply IH.
  - now apply shifted_1.
Qed.
Definition is_exact (l : location) : bool := match l with loc_Exact => true | _ => false end.
Lemma record_of_loc m l : 0 <= m -> shifted m (negb (is_exact l)) 0 (shr_record_of_loc m l).
Proof. intros H. split; [destruct l as [|[]]; cbn; now rewrite Z.div_1_r|]. rewrite Z.mod_1_r. destruct l as [|[]]; reflexivity. Qed.
Lemma exact_loc x : is_exact (loc_of_shr_record x) = negb (inexact x). Proof. now destruct x as [m [] []]. Qed.

Definition fexp64 := fexp prec emax.
Lemma fexp64_eq e : fexp64 e = Z.max (e - 53) (-1074). Proof. reflexivity. Qed.
Lemma shr_fexp_spec m e l : 0 <= m ->
  let k := Z.max 0 (fexp64 (Zdigits2 m + e) - e) in
  exists x, shr_fexp prec emax m e l = (x, e + k) /\ shifted m (negb (is_exact l)) k x.
Proof.
  intros Hm k. unfold shr_fexp, shr. fold fexp64. pose proof (record_of_loc m l Hm) as HR. unfold k. destruct (fexp64 (Zdigits2 m + e) - e) as [|p|p] eqn:E.
  - eexists. split; [f_equal; lia|]. exact HR.
  - eexists. split; [f_equal; lia|]. replace (Z.max 0 (Zpos p)) with (0 + Zpos p) by lia. apply shifted_iter; [lia|lia|exact HR].
  - eexists. split; [f_equal; lia|]. exact HR.
Qed.
Lemma Zdigits2_bounds m : 0 < m -> 2 ^ (Zdigits2 m - 1) <= m < 2 ^ Zdigits2 m /\ 1 <= Zdigits2 m.
Proof. intros H. destruct m as [|p|p]; try lia. cbn [Zdigits2]. split; [apply digits_bounds|lia]. Qed.
Lemma rne_bounds m l : m <= round_nearest_even m l <= m + (if is_exact l then 0 else 1).
Proof. destruct l as [|[]]; cbn; try lia. destruct (Z.even m); lia. Qed.

(** The result of a rounding, as mantissa and exponent before the case distinction. *)
Definition rounded (m e : Z) (l : location) (m'' e'' : Z) : Prop :=
  exists k1 k2, k1 = Z.max 0 (fexp64 (Zdigits2 m + e) - e) /\
  exists r, m / 2 ^ k1 <= r <= m / 2 ^ k1 + (if is_exact l && (m mod 2 ^ k1 =? 0) then 0 else 1) /\
  k2 = Z.max 0 (fexp64 (Zdigits2 r + (e + k1)) - (e + k1)) /\ m'' = r / 2 ^ k2 /\ e'' = e + k1 + k2.
Lemma round_aux_spec sx m e l : 0 <= m -> exists m'' e'', rounded m e l m'' e'' /\ 0 <= m'' /\
  binary_round_aux prec emax sx m e l =
    match m'' with Z0 => S754_zero sx | Zpos p => if e'' <=? 971 then S754_finite sx p e'' else S754_infinity sx | Zneg _ => S754_nan end.
Proof.
  intros Hm. unfold binary_round_aux. destruct (shr_fexp_spec m e l Hm) as (x & E1 & S1 & I1). rewrite E1.
  set (k1 := Z.max 0 (fexp64 (Zdigits2 m + e) - e)) in *. assert (HK : 0 < 2 ^ k1) by (apply Z.pow_pos_nonneg; unfold k1; lia).
  set (r := round_nearest_even (shr_m x) (loc_of_shr_record x)). pose proof (rne_bounds (shr_m x) (loc_of_shr_record x)) as HR. fold r in HR. rewrite exact_loc, I1, S1 in HR.
  assert (HR0 : 0 <= r) by (pose proof (Z.div_pos m (2 ^ k1) Hm HK); lia).
  destruct (shr_fexp_spec r (e + k1) loc_Exact HR0) as (y & E2 & S2 & _). rewrite E2.
  set (k2 := Z.max 0 (fexp64 (Zdigits2 r + (e + k1)) - (e + k1))) in *. exists (r / 2 ^ k2), (e + k1 + k2). split; [|split].
  - exists k1, k2. split; [reflexivity|]. exists r. split; [|auto]. destruct (is_exact l), (m mod 2 ^ k1 =? 0); cbn in *; lia.
  - apply Z.div_pos; [lia|]. apply Z.pow_pos_nonneg; unfold k2; lia.
  - rewrite S2. reflexivity.
Qed.

(** ** Comparison of [m * 2^e] with an integer *)
Definition at_least (N m e : Z) : Prop := N * 2 ^ Z.max 0 (- e) <= m * 2 ^ Z.max 0 e.
Definition at_most (N m e : Z) : Prop := m * 2 ^ Z.max 0 e <= N * 2 ^ Z.max 0 (- e).
Lemma pow2_pos k : 0 <= k -> 0 < 2 ^ k. Proof. intros H. apply Z.pow_pos_nonneg; lia. Qed.
Lemma pow2_le a b : a <= b -> 2 ^ a <= 2 ^ b.
Proof. intros H. apply Z.pow_le_mono_r; lia. Qed.
Lemma floor_at_least N m e : 0 <= N < 2 ^ 53 -> 0 < m -> at_least N m e ->
  let k := Z.max 0 (fexp64 (Zdigits2 m + e) - e) in at_least N (m / 2 ^ k) (e + k).
Proof.
  intros HN Hm H k. destruct (Zdigits2_bounds m Hm) as [[HD1 HD2] HD3]. assert (Ek : k = Z.max 0 (fexp64 (Zdigits2 m + e) - e)) by reflexivity. clearbody k. rewrite fexp64_eq in Ek. destruct (Z.eq_dec k 0) as [->|HK].
  { rewrite Z.div_1_r, Z.add_0_r. exact H. }
  assert (Hk : 0 < k) by lia. pose proof (pow2_pos k ltac:(lia)). unfold at_least in *. destruct (Z.leb_spec (e + k) 0) as [HE|HE].
  - rewrite (Z.max_r 0 (- (e + k))), (Z.max_l 0 (e + k)), Z.mul_1_r by lia. rewrite (Z.max_r 0 (- e)), (Z.max_l 0 e), Z.mul_1_r in H by lia.
    apply Z.div_le_lower_bound; [lia|]. replace (- e) with (k + - (e + k)) in H by lia. rewrite Z.pow_add_r in H by lia. nia.
  - rewrite (Z.max_l 0 (- (e + k))), (Z.max_r 0 (e + k)), Z.mul_1_r by lia. assert (HKd : k = Zdigits2 m - 53) by lia.
    assert (HQ : 2 ^ 52 <= m / 2 ^ k). { apply Z.div_le_lower_bound; [lia|]. rewrite <- Z.pow_add_r by lia. replace (k + 52) with (Zdigits2 m - 1) by lia. exact HD1. }
    assert (2 ^ 1 <= 2 ^ (e + k)) by (apply pow2_le; lia). nia.
Qed.
Lemma ceil_at_most N m e r : 0 <= N < 2 ^ 53 -> 0 < m -> at_most N m e ->
  let k := Z.max 0 (fexp64 (Zdigits2 m + e) - e) in r <= m / 2 ^ k + (if m mod 2 ^ k =? 0 then 0 else 1) -> at_most N r (e + k).
Proof.
  intros HN Hm H k Hr. destruct (Zdigits2_bounds m Hm) as [[HD1 HD2] HD3]. assert (Ek : k = Z.max 0 (fexp64 (Zdigits2 m + e) - e)) by reflexivity. clearbody k. rewrite fexp64_eq in Ek. destruct (Z.eq_dec k 0) as [Hk|HK].
  { rewrite Hk in *. rewrite Z.div_1_r, Z.mod_1_r in Hr. cbn in Hr. rewrite Z.add_0_r in *. unfold at_most in *. pose proof (pow2_pos (Z.max 0 e) ltac:(lia)). nia. }
  assert (Hk : 0 < k) by lia. pose proof (pow2_pos k ltac:(lia)) as HP. unfold at_most in *. destruct (Z.leb_spec (e + k) 0) as [HE|HE].
  - rewrite (Z.max_r 0 (- (e + k))), (Z.max_l 0 (e + k)), Z.mul_1_r by lia. rewrite (Z.max_r 0 (- e)), (Z.max_l 0 e), Z.mul_1_r in H by lia.
    replace (- e) with (k + - (e + k)) in H by lia. rewrite Z.pow_add_r in H by lia. set (w := 2 ^ - (e + k)) in *.
    pose proof (Z.div_mod m (2 ^ k) ltac:(lia)) as HDM. pose proof (Z.mod_pos_bound m (2 ^ k) HP). destruct (m mod 2 ^ k =? 0) eqn:EZ; [nia|].
    assert (m / 2 ^ k < N * w); [|lia]. apply Z.div_lt_upper_bound; [lia|]. assert (m <> 2 ^ k * (N * w)); [|nia]. intros ->. rewrite Z.mul_comm, Z.mod_mul in EZ by lia. discriminate.
  - exfalso. assert (HKd : k = Zdigits2 m - 53 /\ 0 < Zdigits2 m + e - 53) by lia. destruct HKd as [_ HKd].
    assert (HV : 2 ^ 53 <= m * 2 ^ Z.max 0 e / 2 ^ Z.max 0 (- e)).
    { apply Z.div_le_lower_bound; [apply pow2_pos; lia|]. rewrite <- Z.pow_add_r by lia.
      transitivity (2 ^ (Zdigits2 m - 1 + Z.max 0 e)); [apply pow2_le; lia|]. rewrite Z.pow_add_r by lia. pose proof (pow2_pos (Z.max 0 e) ltac:(lia)). nia. }
    assert (HV2 : m * 2 ^ Z.max 0 e / 2 ^ Z.max 0 (- e) <= N). { apply Z.div_le_upper_bound; [apply pow2_pos; lia|]. lia. }
    lia.
Qed.
Lemma at_least_mono N m m' e : m <= m' -> at_least N m e -> at_least N m' e.
Proof. unfold at_least. intros H1 H2. pose proof (pow2_pos (Z.max 0 e) ltac:(lia)). nia. Qed.

Lemma rounded_at_least N m e l m'' e'' : 0 < N < 2 ^ 53 -> 0 < m -> at_least N m e -> rounded m e l m'' e'' -> at_least N m'' e''.
Proof.
  intros HN Hm H (k1 & k2 & -> & r & HR & -> & -> & ->). pose proof (floor_at_least N m e ltac:(lia) Hm H) as H1. cbv zeta in H1.
  assert (H2 : at_least N r (e + Z.max 0 (fexp64 (Zdigits2 m + e) - e))) by (eapply at_least_mono; [apply HR|exact H1]).
  apply floor_at_least; [lia| |exact H2]. unfold at_least in H2. pose proof (pow2_pos (Z.max 0 (e + Z.max 0 (fexp64 (Zdigits2 m + e) - e))) ltac:(lia)).
  pose proof (pow2_pos (Z.max 0 (- (e + Z.max 0 (fexp64 (Zdigits2 m + e) - e)))) ltac:(lia)). nia.
Qed.
Lemma rounded_at_most N m e m'' e'' : 0 < N < 2 ^ 53 -> 0 < m -> at_most N m e -> rounded m e loc_Exact m'' e'' -> at_most N m'' e''.
Proof.
  intros HN Hm H (k1 & k2 & -> & r & HR & -> & -> & ->). cbn [is_exact andb] in HR. pose proof (ceil_at_most N m e r ltac:(lia) Hm H ltac:(apply HR)) as H1.
  set (e1 := e + Z.max 0 (fexp64 (Zdigits2 m + e) - e)) in *. set (k1 := Z.max 0 (fexp64 (Zdigits2 m + e) - e)) in *.
  assert (HR0 : 0 <= r). { pose proof (Z.div_pos m (2 ^ k1) ltac:(lia) (pow2_pos k1 ltac:(lia))). lia. }
  destruct (Z.eq_dec r 0) as [->|Hr].
  - rewrite Z.div_0_l. 2:{ pose proof (pow2_pos (Z.max 0 (fexp64 (Zdigits2 0 + e1) - e1)) ltac:(lia)). lia. }
    unfold at_most. rewrite Z.mul_0_l. apply Z.mul_nonneg_nonneg; [lia|]. apply Z.pow_nonneg. lia.
  - apply ceil_at_most; [lia|lia|exact H1|]. cbv zeta. match goal with |- _ <= _ + (if ?b then _ else _) => destruct b end; lia.
Qed.

(** ** Truncation *)
Lemma trunc_at_least N p e : at_least N (Zpos p) e -> N <= f_trunc false p e.
Proof.
  unfold at_least, f_trunc. intros H. destruct (Z.leb_spec 0 e).
  - rewrite (Z.max_l 0 (- e)), (Z.max_r 0 e) in H by lia. lia.
  - rewrite (Z.max_r 0 (- e)), (Z.max_l 0 e) in H by lia. apply Z.div_le_lower_bound; [apply pow2_pos; lia|]. lia.
Qed.
Lemma trunc_at_most N p e : at_most N (Zpos p) e -> f_trunc false p e <= N.
Proof.
  unfold at_most, f_trunc. intros H. destruct (Z.leb_spec 0 e).
  - rewrite (Z.max_l 0 (- e)), (Z.max_r 0 e) in H by lia. lia.
  - rewrite (Z.max_r 0 (- e)), (Z.max_l 0 e) in H by lia. apply Z.div_le_upper_bound; [apply pow2_pos; lia|]. lia.
Qed.

(** ** Normalisation *)
Lemma shift_pos_spec d m : Zpos (shift_pos d m) = Zpos m * 2 ^ Zpos d.
Proof. rewrite shift_pos_correct. change (2 ^ Zpos d) with (Z.pow_pos 2 d). lia. Qed.
Lemma shl_align_spec m e e' : let (m1, e1) := shl_align m e e' in e1 = Z.min e e' /\ Zpos m1 = Zpos m * 2 ^ (e - e1).
Proof.
  unfold shl_align. destruct (e' - e) as [|d|d] eqn:E.
  - split; [lia|]. rewrite Z.sub_diag. lia.
  - split; [lia|]. rewrite Z.sub_diag. lia.
  - split; [lia|]. rewrite shift_pos_spec. f_equal. f_equal. lia.
Qed.
Lemma shl_align_fst m e e' : e' <= e -> Zpos (fst (shl_align m e e')) = Zpos m * 2 ^ (e - e').
Proof. intros H. pose proof (shl_align_spec m e e') as HS. destruct (shl_align m e e') as [m1 e1]. destruct HS as [-> HS]. cbn [fst]. rewrite HS. do 2 f_equal. lia. Qed.
Lemma at_least_scale N m e e1 : e1 <= e -> at_least N m e -> at_least N (m * 2 ^ (e - e1)) e1.
Proof.
  unfold at_least. intros H1 H2. destruct (Z.leb_spec 0 e1).
  - rewrite (Z.max_l 0 (- e1)), (Z.max_r 0 e1) by lia. rewrite (Z.max_l 0 (- e)), (Z.max_r 0 e) in H2 by lia. rewrite <- Z.mul_assoc, <- Z.pow_add_r by lia. now replace (e - e1 + e1) with e by lia.
  - rewrite (Z.max_r 0 (- e1)), (Z.max_l 0 e1), Z.mul_1_r by lia. replace (e - e1) with (e + - e1) by lia. destruct (Z.leb_spec 0 e).
    + rewrite (Z.max_l 0 (- e)), (Z.max_r 0 e) in H2 by lia. rewrite Z.pow_add_r by lia. pose proof (pow2_pos (- e1) ltac:(lia)). nia.
    + rewrite (Z.max_r 0 (- e)), (Z.max_l 0 e) in H2 by lia. replace (- e1) with (- e + (e + - e1)) at 1 by lia. rewrite Z.pow_add_r by lia. pose proof (pow2_pos (e + - e1) ltac:(lia)). nia.
Qed.
Lemma at_most_scale N m e e1 : e1 <= e -> at_most N m e -> at_most N (m * 2 ^ (e - e1)) e1.
Proof.
  unfold at_most. intros H1 H2. destruct (Z.leb_spec 0 e1).
  - rewrite (Z.max_l 0 (- e1)), (Z.max_r 0 e1) by lia. rewrite (Z.max_l 0 (- e)), (Z.max_r 0 e) in H2 by lia. rewrite <- Z.mul_assoc, <- Z.pow_add_r by lia. now replace (e - e1 + e1) with e by lia.
  - rewrite (Z.max_r 0 (- e1)), (Z.max_l 0 e1), Z.mul_1_r by lia. replace (e - e1) with (e + - e1) by lia. destruct (Z.leb_spec 0 e).
    + rewrite (Z.max_l 0 (- e)), (Z.max_r 0 e) in H2 by lia. rewrite Z.pow_add_r by lia. pose proof (pow2_pos (- e1) ltac:(lia)). nia.
    + rewrite (Z.max_r 0 (- e)), (Z.max_l 0 e) in H2 by lia. assert (HS : 2 ^ (- e1) = 2 ^ (- e) * 2 ^ (e + - e1)) by (rewrite <- Z.pow_add_r by lia; f_equal; lia). rewrite HS. pose proof (pow2_pos (e + - e1) ltac:(lia)). nia.
Qed.
Lemma f_to_u32_inf : f_to_u32 (S754_infinity false) = 2 ^ 32 - 1. Proof. reflexivity. Qed.
Lemma round_at_least N m e : 0 < N < 2 ^ 32 -> at_least N (Zpos m) e -> N <= f_to_u32 (binary_round prec emax false m e).
Proof.
  intros HN H. unfold binary_round. pose proof (shl_align_spec m e (fexp prec emax (Zpos (digits2_pos m) + e))) as HS. destruct (shl_align _ _ _) as [m1 e1]. destruct HS as [He Hm1].
  destruct (round_aux_spec false (Zpos m1) e1 loc_Exact ltac:(lia)) as (m2 & e2 & HR & Hm2 & ->).
  assert (HN53 : 2 ^ 32 < 2 ^ 53) by reflexivity. apply (rounded_at_least N) in HR; [|lia|lia|rewrite Hm1; apply at_least_scale; [lia|exact H]].
  destruct m2 as [|p|p]; [|destruct (Z.leb_spec e2 971); [|rewrite f_to_u32_inf; lia]|lia].
  - unfold at_least in HR. rewrite Z.mul_0_l in HR. pose proof (pow2_pos (Z.max 0 (- e2)) ltac:(lia)). nia.
  - apply trunc_at_least in HR. unfold f_to_u32, f_to_int. lia.
Qed.
Lemma round_at_most N m e : 0 < N < 2 ^ 32 -> at_most N (Zpos m) e -> f_to_u32 (binary_round prec emax false m e) <= N.
Proof.
  intros HN H. unfold binary_round. pose proof (shl_align_spec m e (fexp prec emax (Zpos (digits2_pos m) + e))) as HS. destruct (shl_align _ _ _) as [m1 e1]. destruct HS as [He Hm1].
  destruct (round_aux_spec false (Zpos m1) e1 loc_Exact ltac:(lia)) as (m2 & e2 & HR & Hm2 & ->).
  assert (HN53 : 2 ^ 32 < 2 ^ 53) by reflexivity. apply (rounded_at_most N) in HR; [|lia|lia|rewrite Hm1; apply at_most_scale; [lia|exact H]].
  destruct m2 as [|p|p]; [cbn; lia|destruct (Z.leb_spec e2 971)|lia].
  - apply trunc_at_most in HR. unfold f_to_u32, f_to_int. lia.
  - exfalso. unfold at_most in HR. rewrite (Z.max_l 0 (- e2)), (Z.max_r 0 e2), Z.mul_1_r in HR by lia. assert (2 ^ 53 <= 2 ^ e2) by (apply pow2_le; lia). nia.
Qed.

(** ** Integers below 2^53 are exact *)
Lemma Zdigits2_unique m d : 0 < m -> 2 ^ (d - 1) <= m < 2 ^ d -> Zdigits2 m = d.
Proof.
  intros H [H1 H2]. destruct (Zdigits2_bounds m H) as [[H3 H4] H5].
  assert (Hd : 0 < d). { destruct (Z.leb_spec d 0); [|lia]. assert (2 ^ d <= 1) by (change 1 with (2 ^ 0); apply pow2_le; lia). lia. }
  destruct (Z.lt_trichotomy (Zdigits2 m) d) as [HL|[HL|HL]]; [|exact HL|].
  - assert (2 ^ Zdigits2 m <= 2 ^ (d - 1)) by (apply pow2_le; lia). lia.
  - assert (2 ^ d <= 2 ^ (Zdigits2 m - 1)) by (apply pow2_le; lia). lia.
Qed.
Lemma f_of_Z_exact N : 0 < N < 2 ^ 53 -> exists m e, f_of_Z N = S754_finite false m e /\ -52 <= e <= 0 /\ Zpos m = N * 2 ^ (- e) /\ 2 ^ 52 <= Zpos m < 2 ^ 53.
Proof.
  intros HN. destruct N as [|p|p]; try lia. unfold f_of_Z, binary_normalize, binary_round. set (d := Zpos (digits2_pos p)). fold d.
  destruct (Zdigits2_bounds (Zpos p) ltac:(lia)) as [[HD1 HD2] HD3]. cbn [Zdigits2] in HD1, HD2, HD3. fold d in HD1, HD2, HD3.
  assert (Hd : d <= 53). { destruct (Z.leb_spec d 53) as [|Hd]; [assumption|]. assert (2 ^ 53 <= 2 ^ (d - 1)) by (apply pow2_le; lia). lia. }
  pose proof (shl_align_spec p 0 (fexp prec emax (d + 0))) as HS. destruct (shl_align _ _ _) as [m1 e1]. destruct HS as [He Hm1]. fold fexp64 in He. rewrite fexp64_eq in He.
  assert (He1 : e1 = d - 53) by lia. rewrite Z.sub_0_l in Hm1.
  assert (HB : 2 ^ 52 <= Zpos m1 < 2 ^ 53).
  { rewrite Hm1, He1. replace (- (d - 53)) with (53 - d) by lia. assert (H52 : 2 ^ 52 = 2 ^ (d - 1) * 2 ^ (53 - d)) by (rewrite <- Z.pow_add_r by lia; f_equal; lia).
    assert (H53 : 2 ^ 53 = 2 ^ d * 2 ^ (53 - d)) by (rewrite <- Z.pow_add_r by lia; f_equal; lia). pose proof (pow2_pos (53 - d) ltac:(lia)). rewrite H52, H53. nia. }
  assert (HDm : Zdigits2 (Zpos m1) = 53) by (apply Zdigits2_unique; [lia|exact HB]).
  destruct (round_aux_spec false (Zpos m1) e1 loc_Exact ltac:(lia)) as (m2 & e2 & (k1 & k2 & Hk1 & r & Hr & Hk2 & Hm2 & He2) & Hm2' & ->).
  rewrite HDm, fexp64_eq in Hk1. assert (k1 = 0) by lia. subst k1. rewrite H in *. rewrite Z.div_1_r, Z.mod_1_r in Hr. cbn in Hr. assert (r = Zpos m1) by lia. subst r.
  rewrite HDm, fexp64_eq in Hk2. assert (k2 = 0) by lia. subst k2. rewrite H0 in *. rewrite Z.div_1_r in Hm2. subst m2. replace (e2 <=? 971) with true by lia.
  exists m1, e2. split; [reflexivity|]. split; [lia|]. split; [|exact HB]. rewrite Hm1. do 2 f_equal. lia.
Qed.
Lemma f_of_Z_0 : f_of_Z 0 = S754_zero false. Proof. reflexivity. Qed.

(** ** Adding something of known sign to an integer *)
Lemma add_up N f : 0 < N < 2 ^ 32 -> match f with S754_zero _ | S754_finite false _ _ | S754_infinity false => True | _ => False end ->
  N <= f_to_u32 (f_add (f_of_Z N) f).
Proof.
  intros HN Hf. assert (HN53 : 2 ^ 32 < 2 ^ 53) by reflexivity. destruct (f_of_Z_exact N ltac:(lia)) as (m & e & -> & He & Hm & HB).
  assert (HV : at_least N (Zpos m) e) by (unfold at_least; rewrite (Z.max_r 0 (- e)), (Z.max_l 0 e) by lia; lia).
  destruct f as [s|[]| |[] m2 e2]; try contradiction; unfold f_add, SFadd.
  - apply trunc_at_least in HV. unfold f_to_u32, f_to_int. lia.
  - rewrite f_to_u32_inf. lia.
  - cbn [cond_Zopp]. rewrite !shl_align_fst by lia. set (ez := Z.min e e2). pose proof (pow2_pos (e2 - ez) ltac:(lia)). pose proof (pow2_pos (e - ez) ltac:(lia)).
    destruct (Zpos m * 2 ^ (e - ez) + Zpos m2 * 2 ^ (e2 - ez)) as [|p|p] eqn:ES; [nia| |nia]. cbn [binary_normalize]. apply round_at_least; [lia|]. rewrite <- ES.
    eapply at_least_mono; [|apply at_least_scale; [|exact HV]]; [nia|lia].
Qed.
Lemma negative_to_u32 m e l : 0 <= m -> f_to_u32 (binary_round_aux prec emax true m e l) = 0.
Proof.
  intros Hm. destruct (round_aux_spec true m e l Hm) as (m2 & e2 & _ & H & ->). destruct m2 as [|p|p]; [reflexivity| |reflexivity].
  destruct (e2 <=? 971); [|reflexivity]. unfold f_to_u32, f_to_int, f_trunc. destruct (Z.leb_spec 0 e2).
  - pose proof (pow2_pos e2 ltac:(lia)). assert (0 <= Zpos p * 2 ^ e2) by nia. lia.
  - pose proof (Z.div_pos (Zpos p) (2 ^ - e2) ltac:(lia) (pow2_pos (- e2) ltac:(lia))). lia.
Qed.
Lemma f_to_u32_range f : 0 <= f_to_u32 f <= 2 ^ 32 - 1.
Proof. unfold f_to_u32, f_to_int. destruct f as [s|[]| |[] m e]; lia. Qed.
Lemma add_down N f : 0 < N < 2 ^ 32 -> match f with S754_zero _ | S754_nan | S754_finite true _ _ | S754_infinity true => True | _ => False end ->
  f_to_u32 (f_add (f_of_Z N) f) <= N.
Proof.
  intros HN Hf. assert (HN53 : 2 ^ 32 < 2 ^ 53) by reflexivity. destruct (f_of_Z_exact N ltac:(lia)) as (m & e & -> & He & Hm & HB).
  assert (HV : at_most N (Zpos m) e) by (unfold at_most; rewrite (Z.max_r 0 (- e)), (Z.max_l 0 e) by lia; lia).
  destruct f as [s|[]| |[] m2 e2]; try contradiction; unfold f_add, SFadd.
  - apply trunc_at_most in HV. unfold f_to_u32, f_to_int. lia.
  - cbn. lia.
  - cbn. lia.
  - cbn [cond_Zopp]. rewrite !shl_align_fst by lia. set (ez := Z.min e e2). pose proof (pow2_pos (e2 - ez) ltac:(lia)). pose proof (pow2_pos (e - ez) ltac:(lia)).
    destruct (Zpos m * 2 ^ (e - ez) + - (Zpos m2 * 2 ^ (e2 - ez))) as [|p|p] eqn:ES; cbn [binary_normalize]; [cbn; lia| |].
    + apply round_at_most; [lia|]. rewrite <- ES. unfold at_most. pose proof (at_most_scale N (Zpos m) e ez ltac:(lia) HV) as H1. unfold at_most in H1.
      pose proof (pow2_pos (Z.max 0 ez) ltac:(lia)). nia.
    + unfold binary_round. destruct (shl_align _ _ _) as [m1 e1]. rewrite negative_to_u32 by lia. lia.
Qed.

(** ** Signs *)
(** [f] is not a number, or zero, or has sign [s]. *)
Definition signed (s : bool) (f : f64) : Prop := match f with S754_zero _ | S754_nan => True | S754_infinity x | S754_finite x _ _ => x = s end.
Definition not_nan (f : f64) : Prop := f <> S754_nan.
Definition is_fin (f : f64) : Prop := match f with S754_zero _ | S754_finite _ _ _ => True | _ => False end.
Lemma signed_round s m e l : 0 <= m -> signed s (binary_round_aux prec emax s m e l) /\ not_nan (binary_round_aux prec emax s m e l).
Proof.
  intros H. unfold not_nan. destruct (round_aux_spec s m e l H) as (m2 & e2 & _ & H2 & ->). destruct m2 as [|p|p]; [cbn; split; [exact I|discriminate]| |lia].
  destruct (e2 <=? 971); cbn; split; (reflexivity || discriminate).
Qed.
Lemma signed_mul s1 s2 a b : signed s1 a -> signed s2 b -> signed (xorb s1 s2) (f_mul a b).
Proof.
  unfold f_mul. destruct a as [x|x| |x m1 e1], b as [y|y| |y m2 e2]; cbn [SFmul signed]; intros H1 H2; subst; try exact I; try reflexivity. apply signed_round. lia.
Qed.
Lemma fin_mul a b : is_fin a -> is_fin b -> not_nan (f_mul a b).
Proof. unfold f_mul. destruct a as [x|x| |x m1 e1], b as [y|y| |y m2 e2]; cbn [SFmul is_fin]; intros H1 H2; try contradiction; try discriminate. apply signed_round. lia. Qed.
(** Multiplication by a non-zero finite number does not produce NaN. *)
Lemma not_nan_mul a s m e : not_nan a -> not_nan (f_mul a (S754_finite s m e)).
Proof. unfold f_mul. destruct a as [x|x| |x m1 e1]; cbn [SFmul]; intros H; try discriminate; [congruence|]. apply signed_round. lia. Qed.
Lemma div_core_nonneg m1 e1 m2 e2 : 0 <= m1 -> 0 < m2 -> let '(q, e, l) := SFdiv_core_binary prec emax m1 e1 m2 e2 in 0 <= q /\
  e = Z.min (fexp64 (Zdigits2 m1 + e1 - (Zdigits2 m2 + e2))) (e1 - e2) /\ q = m1 * 2 ^ (e1 - e2 - e) / m2.
Proof.
  intros H1 H2. unfold SFdiv_core_binary. fold fexp64. set (e' := Z.min _ _). assert (He : 0 <= e1 - e2 - e') by lia.
  set (m' := match e1 - e2 - e' with Z0 => m1 | Zpos _ => Z.shiftl m1 (e1 - e2 - e') | Zneg _ => 0 end).
  assert (Hm' : m' = m1 * 2 ^ (e1 - e2 - e')). { unfold m'. destruct (e1 - e2 - e') eqn:E; [rewrite Z.pow_0_r; lia| |lia]. apply Z.shiftl_mul_pow2. lia. }
  pose proof (Z_div_mod m' m2 ltac:(lia)) as HD. unfold Z.div. destruct (Z.div_eucl m' m2) as [q r] eqn:EQ. rewrite <- Hm'. rewrite EQ. split; [|auto].
  assert (0 <= m') by (rewrite Hm'; pose proof (pow2_pos _ He); nia). nia.
Qed.
Lemma signed_div s1 s2 a m2 e2 : signed s1 a -> signed (xorb s1 s2) (f_div a (S754_finite s2 m2 e2)).
Proof.
  unfold f_div. destruct a as [x|x| |x m1 e1]; cbn [SFdiv signed]; intros H1; subst; try exact I; try reflexivity.
  pose proof (div_core_nonneg (Zpos m1) e1 (Zpos m2) e2 ltac:(lia) ltac:(lia)) as HC. destruct (SFdiv_core_binary _ _ _ _ _ _) as [[q e] l]. apply signed_round. apply HC.
Qed.
Lemma not_nan_div a s m e : not_nan a -> not_nan (f_div a (S754_finite s m e)).
Proof.
  unfold f_div. destruct a as [x|x| |x m1 e1]; cbn [SFdiv]; intros H; try discriminate; [congruence|].
  pose proof (div_core_nonneg (Zpos m1) e1 (Zpos m) e ltac:(lia) ltac:(lia)) as HC. destruct (SFdiv_core_binary _ _ _ _ _ _) as [[q e3] l]. apply signed_round. apply HC.
Qed.
Lemma f_of_Z_class N : 0 <= N < 2 ^ 53 -> signed false (f_of_Z N) /\ is_fin (f_of_Z N).
Proof.
  intros H. destruct (Z.eq_dec N 0) as [->|HN]; [split; exact I|]. destruct (f_of_Z_exact N ltac:(lia)) as (m & e & -> & _). split; [reflexivity|exact I].
Qed.
(** The sign of a difference of integers. *)
Lemma sub_sign a b : 0 < a < 2 ^ 53 -> 0 <= b < 2 ^ 53 -> signed (a <? b) (f_sub (f_of_Z a) (f_of_Z b)) /\ not_nan (f_sub (f_of_Z a) (f_of_Z b)).
Proof.
  intros Ha Hb. destruct (f_of_Z_exact a Ha) as (m & e & -> & He & Hm & _). destruct (Z.eq_dec b 0) as [->|Hb0].
  - rewrite f_of_Z_0. cbn [f_sub SFsub]. split; [cbn; lia|discriminate].
  - destruct (f_of_Z_exact b ltac:(lia)) as (m2 & e2 & -> & He2 & Hm2 & _). cbn [f_sub SFsub]. unfold f_sub. cbn [SFsub cond_Zopp]. rewrite !shl_align_fst by lia.
    set (ez := Z.min e e2). rewrite Hm, Hm2, <- !Z.mul_assoc, <- !Z.pow_add_r by lia. replace (- e + (e - ez)) with (- ez) by lia. replace (- e2 + (e2 - ez)) with (- ez) by lia.
    pose proof (pow2_pos (- ez) ltac:(lia)) as HP. destruct (a * 2 ^ (- ez) - b * 2 ^ (- ez)) as [|p|p] eqn:ES; cbn [binary_normalize].
    + split; [exact I|discriminate].
    + unfold binary_round. destruct (shl_align _ _ _) as [m1 e1]. replace (a <? b) with false by nia. apply signed_round. lia.
    + unfold binary_round. destruct (shl_align _ _ _) as [m1 e1]. replace (a <? b) with true by nia. apply signed_round. lia.
Qed.

(** ** Bounds that exclude infinities *)
Definition small (B : Z) (f : f64) : Prop :=
  match f with S754_zero _ => True | S754_finite _ m e => e <= B /\ Zpos m < 2 ^ (B - e) | _ => False end.
Lemma small_fin B f : small B f -> is_fin f. Proof. destruct f; cbn; auto. Qed.
Lemma Zdigits2_small m B : 0 <= m < 2 ^ B -> 0 <= B -> 0 <= Zdigits2 m <= B.
Proof.
  intros H HB. destruct (Z.eq_dec m 0) as [->|Hm]; [cbn; lia|]. destruct (Zdigits2_bounds m ltac:(lia)) as [[H1 _] H2].
  split; [lia|]. destruct (Z.leb_spec (Zdigits2 m) B); [assumption|]. assert (2 ^ B <= 2 ^ (Zdigits2 m - 1)) by (apply pow2_le; lia). lia.
Qed.
Lemma shift_small m e B k : 0 <= m < 2 ^ (B - e) -> e <= B -> -1074 <= B -> k = Z.max 0 (fexp64 (Zdigits2 m + e) - e) -> e + k <= B /\ 0 <= m / 2 ^ k < 2 ^ (B - (e + k)).
Proof.
  intros Hm He HB Hk. rewrite fexp64_eq in Hk. pose proof (Zdigits2_small m (B - e) Hm ltac:(lia)). split; [lia|]. assert (HK : 0 <= k) by lia. pose proof (pow2_pos k HK).
  split; [apply Z.div_pos; lia|]. apply Z.div_lt_upper_bound; [lia|]. rewrite <- Z.pow_add_r by lia. replace (k + (B - (e + k))) with (B - e) by lia. lia.
Qed.
Lemma round_small s m e l B : 0 <= m < 2 ^ (B - e) -> e <= B -> -1074 <= B < 971 -> small (B + 1) (binary_round_aux prec emax s m e l).
Proof.
  intros Hm He HB. destruct (round_aux_spec s m e l ltac:(lia)) as (m2 & e2 & (k1 & k2 & Hk1 & r & Hr & Hk2 & Hm2 & He2) & Hm2' & ->).
  destruct (shift_small m e B k1 Hm He ltac:(lia) Hk1) as [He1 Hm1].
  assert (HR : 0 <= r < 2 ^ (B + 1 - (e + k1))).
  { replace (B + 1 - (e + k1)) with (Z.succ (B - (e + k1))) by lia. rewrite Z.pow_succ_r by lia. pose proof (pow2_pos (B - (e + k1)) ltac:(lia)). destruct (_ && _); lia. }
  destruct (shift_small r (e + k1) (B + 1) k2 HR ltac:(lia) ltac:(lia) Hk2) as [He3 Hm3]. subst m2 e2. destruct (r / 2 ^ k2) as [|p|p]; [exact I| |lia].
  replace (e + k1 + k2 <=? 971) with true by lia. cbn. split; [lia|]. lia.
Qed.
Lemma small_mul A B f g : small A f -> small B g -> -1074 <= A + B < 971 -> small (A + B + 1) (f_mul f g).
Proof.
  unfold f_mul. destruct f as [x|x| |x m1 e1], g as [y|y| |y m2 e2]; cbn [SFmul]; intros H1 H2 HAB; try contradiction; try exact I. destruct H1 as [H1 H1'], H2 as [H2 H2'].
  apply round_small; [|lia|lia]. rewrite Pos2Z.inj_mul. split; [lia|]. replace (A + B - (e1 + e2)) with (A - e1 + (B - e2)) by lia. rewrite Z.pow_add_r by lia. nia.
Qed.
Lemma small_div A f s m e : small A f -> -1074 <= A - e < 971 -> small (A - e + 1) (f_div f (S754_finite s m e)).
Proof.
  unfold f_div. destruct f as [x|x| |x m1 e1]; cbn [SFdiv]; intros H1 HA; try contradiction; try exact I. destruct H1 as [H1 H1'].
  pose proof (div_core_nonneg (Zpos m1) e1 (Zpos m) e ltac:(lia) ltac:(lia)) as HC. destruct (SFdiv_core_binary _ _ _ _ _ _) as [[q e3] l]. destruct HC as (C1 & C2 & C3).
  apply round_small; [|lia|lia]. split; [exact C1|]. rewrite C3. apply Z.div_lt_upper_bound; [lia|].
  assert (HQ : Zpos m1 * 2 ^ (e1 - e - e3) < 2 ^ (A - e - e3)).
  { replace (A - e - e3) with (A - e1 + (e1 - e - e3)) by lia. rewrite Z.pow_add_r by lia. pose proof (pow2_pos (e1 - e - e3) ltac:(lia)). nia. }
  nia.
Qed.
Lemma small_sub a b B : 0 < a < 2 ^ 53 -> 0 <= b <= a -> a < 2 ^ B -> 0 <= B < 971 -> small (B + 1) (f_sub (f_of_Z a) (f_of_Z b)).
Proof.
  intros Ha Hb HB HB2. destruct (f_of_Z_exact a Ha) as (m & e & -> & He & Hm & _). destruct (Z.eq_dec b 0) as [->|Hb0].
  - rewrite f_of_Z_0. unfold f_sub. cbn [SFsub small]. split; [lia|]. rewrite Hm. replace (B + 1 - e) with (B + 1 + - e) by lia. rewrite !Z.pow_add_r by lia.
    pose proof (pow2_pos (- e) ltac:(lia)). pose proof (pow2_pos B ltac:(lia)). nia.
  - destruct (f_of_Z_exact b ltac:(lia)) as (m2 & e2 & -> & He2 & Hm2 & _). unfold f_sub. cbn [SFsub cond_Zopp]. rewrite !shl_align_fst by lia.
    set (ez := Z.min e e2). rewrite Hm, Hm2, <- !Z.mul_assoc, <- !Z.pow_add_r by lia. replace (- e + (e - ez)) with (- ez) by lia. replace (- e2 + (e2 - ez)) with (- ez) by lia.
    pose proof (pow2_pos (- ez) ltac:(lia)) as HP. destruct (a * 2 ^ (- ez) - b * 2 ^ (- ez)) as [|p|p] eqn:ES; cbn [binary_normalize]; [exact I| |nia].
    unfold binary_round. pose proof (shl_align_spec p ez (fexp prec emax (Zpos (digits2_pos p) + ez))) as HS. destruct (shl_align _ _ _) as [m1 e1]. destruct HS as [HS1 HS2].
    apply round_small; [|lia|lia]. split; [lia|]. rewrite HS2, <- ES. replace (B - e1) with (B + - ez + (ez - e1)) by lia. rewrite !Z.pow_add_r by lia.
    pose proof (pow2_pos (ez - e1) ltac:(lia)). assert ((a - b) * 2 ^ (- ez) < 2 ^ B * 2 ^ (- ez)) by nia. nia.
Qed.
