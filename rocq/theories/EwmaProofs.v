(** Bounds of the moving average of delay samples: it never leaves the range of the samples by more than a factor of two, so it is never infinite and the
    subtractions of delays cannot overflow an i64 (C55). *)
From Verif Require Export Float FloatProofs.
Require Import ZifyBool ZifyNat ZifyN Lia.
Local Open Scope Z_scope.

(** A finite number of magnitude at most [N]. *)
Definition within (N : Z) (f : f64) : Prop := match f with S754_zero _ => True | S754_finite _ m e => at_most N (Zpos m) e | _ => False end.
Lemma within_aux N s m e : 0 < N < 2 ^ 53 -> 0 < m -> at_most N m e -> within N (binary_round_aux prec emax s m e loc_Exact).
Proof.
  intros HN Hm H. destruct (round_aux_spec s m e loc_Exact ltac:(lia)) as (m2 & e2 & HR & Hm2 & ->). apply (rounded_at_most N) in HR; [|lia|lia|exact H].
  destruct m2 as [|p|p]; [exact I| |lia]. destruct (Z.leb_spec e2 971); [exact HR|]. exfalso. unfold at_most in HR. rewrite (Z.max_l 0 (- e2)), (Z.max_r 0 e2), Z.mul_1_r in HR by lia.
  assert (2 ^ 53 <= 2 ^ e2) by (apply pow2_le; lia). nia.
Qed.
Lemma within_round N s m e : 0 < N < 2 ^ 53 -> at_most N (Zpos m) e -> within N (binary_round prec emax s m e).
Proof.
  intros HN H. unfold binary_round. pose proof (shl_align_spec m e (fexp prec emax (Zpos (digits2_pos m) + e))) as HS. destruct (shl_align _ _ _) as [m1 e1]. destruct HS as [He Hm1].
  apply within_aux; [exact HN|lia|]. rewrite Hm1. apply at_most_scale; [lia|exact H].
Qed.
Lemma within_of_Z N z : 0 < N < 2 ^ 53 -> - N <= z <= N -> within N (f_of_Z z).
Proof.
  intros HN Hz. unfold f_of_Z. destruct z as [|p|p]; cbn [binary_normalize]; [exact I|apply within_round; [exact HN|]..]; unfold at_most; cbn; lia.
Qed.
Lemma within_add A B f g : 0 < A -> 0 < B -> A + B < 2 ^ 53 -> within A f -> within B g -> within (A + B) (f_add f g).
Proof.
  intros HA HB HS Hf Hg. unfold f_add.
  assert (HM : forall X Y m e, 0 < Y -> at_most X m e -> at_most (X + Y) m e).
  { clear. intros X Y m e HY H. unfold at_most in *. pose proof (pow2_pos (Z.max 0 (- e)) ltac:(lia)). nia. }
  destruct f as [x|x| |x m1 e1], g as [y|y| |y m2 e2]; try contradiction; cbn [SFadd].
  - destruct (Bool.eqb x y); exact I.
  - cbn in Hg |- *. rewrite Z.add_comm. now apply HM.
  - cbn in Hf |- *. now apply HM.
  - cbn [within] in Hf, Hg. rewrite !shl_align_fst by lia. set (ez := Z.min e1 e2).
    pose proof (at_most_scale A _ e1 ez ltac:(lia) Hf) as H1. pose proof (at_most_scale B _ e2 ez ltac:(lia) Hg) as H2.
    pose proof (pow2_pos (e1 - ez) ltac:(lia)). pose proof (pow2_pos (e2 - ez) ltac:(lia)).
    set (M1 := Zpos m1 * 2 ^ (e1 - ez)) in *. set (M2 := Zpos m2 * 2 ^ (e2 - ez)) in *. assert (0 < M1) by (unfold M1; nia). assert (0 < M2) by (unfold M2; nia).
    assert (HZ : forall z, Z.abs z <= M1 + M2 -> within (A + B) (binary_normalize prec emax z ez false)).
    { intros z Hz. pose proof (pow2_pos (Z.max 0 ez) ltac:(lia)). unfold at_most in H1, H2. destruct z as [|p|p]; cbn [binary_normalize]; [exact I|apply within_round; [lia|]..]; unfold at_most; nia. }
    apply HZ. destruct x, y; cbn [cond_Zopp]; lia.
Qed.
(** Multiplication by a constant [a * 2^(-k)] of magnitude at most [N / M]. *)
Lemma within_mul M N s a k g : 0 < N < 2 ^ 53 -> 0 <= k -> Zpos a * M <= N * 2 ^ k -> within M g -> within N (f_mul (S754_finite s a (- k)) g).
Proof.
  intros HN HK HA Hg. unfold f_mul. destruct g as [y|y| |y m e]; try contradiction; cbn [SFmul]; [exact I|]. cbn [within] in Hg.
  apply within_aux; [exact HN|lia|]. rewrite Pos2Z.inj_mul. unfold at_most in *.
  pose proof (pow2_pos k HK) as HP. pose proof (pow2_pos (Z.max 0 e) ltac:(lia)). pose proof (pow2_pos (Z.max 0 (- e)) ltac:(lia)).
  assert (H1 : Zpos a * Zpos m * 2 ^ Z.max 0 e <= N * 2 ^ k * 2 ^ Z.max 0 (- e)).
  { transitivity (Zpos a * M * 2 ^ Z.max 0 (- e)); [|nia]. rewrite <- !Z.mul_assoc. apply Z.mul_le_mono_nonneg_l; lia. }
  destruct (Z.leb_spec k e) as [HE|HE].
  - rewrite (Z.max_l 0 (- (- k + e))), (Z.max_r 0 (- k + e)), Z.mul_1_r by lia. rewrite (Z.max_r 0 e), (Z.max_l 0 (- e)), Z.mul_1_r in H1 by lia.
    replace e with (k + (- k + e)) in H1 at 1 by lia. rewrite Z.pow_add_r in H1 by lia. set (w := 2 ^ (- k + e)) in *. clearbody w. clear - H1 HP. 
    apply (Z.mul_le_mono_pos_l _ _ (2 ^ k)); [exact HP|]. lia.
  - rewrite (Z.max_r 0 (- (- k + e))), (Z.max_l 0 (- k + e)), Z.mul_1_r by lia. replace (- (- k + e)) with (k + - e) by lia.
    assert (HW : 0 < 2 ^ (k + - e)) by (apply pow2_pos; lia).
    destruct (Z.leb_spec 0 e).
    + rewrite (Z.max_r 0 e), (Z.max_l 0 (- e)), Z.mul_1_r in H1 by lia. replace k with ((k + - e) + e) in H1 by lia. rewrite Z.pow_add_r in H1 by lia.
      pose proof (pow2_pos e ltac:(lia)) as HQ. apply (Z.mul_le_mono_pos_r _ _ (2 ^ e)); [exact HQ|]. lia.
    + rewrite (Z.max_l 0 e), (Z.max_r 0 (- e)), Z.mul_1_r in H1 by lia. rewrite Z.pow_add_r by lia. lia.
Qed.
Lemma within_i64 N f : 0 <= N < 2 ^ 53 -> within N f -> - N <= f_to_i64 f <= N.
Proof.
  intros HN. unfold f_to_i64, f_to_int. change (2 ^ 63) with 9223372036854775808. assert (2 ^ 53 = 9007199254740992) by reflexivity.
  destruct f as [x|x| |x m e]; cbn [within]; try contradiction; [lia|]. intros H0. pose proof (trunc_at_most _ _ _ H0) as H1.
  assert (H2 : 0 <= f_trunc false m e). { unfold f_trunc. destruct (0 <=? e) eqn:E; [pose proof (pow2_pos e ltac:(lia)); nia|apply Z.div_pos; [lia|apply pow2_pos; lia]]. }
  assert (H3 : f_trunc true m e = - f_trunc false m e) by (unfold f_trunc; reflexivity). destruct x; rewrite ?H3; lia.
Qed.

Lemma alpha_value : f_0_333 = S754_finite false 5998794703657501 (-54). Proof. vm_compute. reflexivity. Qed.
Lemma beta_value : f_sub (f_of_Z 1) f_0_333 = S754_finite false 6007801902912242 (-53). Proof. vm_compute. reflexivity. Qed.
Lemma ewma_within l : Forall (fun d => - 2 ^ 32 < d < 2 ^ 32) l -> within (2 ^ 33) (ewma l f_0_333).
Proof.
  intros H. assert (E53 : 2 ^ 33 < 2 ^ 53) by reflexivity. assert (E33 : 2 ^ 33 = 2 * 2 ^ 32) by reflexivity. assert (HP : 0 < 2 ^ 32) by reflexivity.
  destruct H as [|x l Hx H]; [apply within_of_Z; lia|]. unfold ewma. rewrite beta_value, alpha_value. 
  assert (HX : within (2 ^ 33) (f_of_Z x)) by (apply within_of_Z; lia). revert HX. generalize (f_of_Z x). clear x Hx. induction H as [|x l Hx H IH]; intros g Hg; cbn [fold_left]; [exact Hg|].
  apply IH. change (2 ^ 33) with (2 ^ 33 / 4 + 3 * (2 ^ 33 / 4)). apply within_add; [reflexivity..| |].
  - apply (within_mul (2 ^ 32) _ false 5998794703657501 54); [split; reflexivity|lia|discriminate|]. apply within_of_Z; lia.
  - apply (within_mul (2 ^ 33) _ false 6007801902912242 53); [split; reflexivity|lia|discriminate|exact Hg].
Qed.
