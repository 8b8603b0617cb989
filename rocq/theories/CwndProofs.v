(** Lemmas for C45. *)
From Verif Require Export CongProofs FloatProofs.
Require Import ZifyBool Lia.
Local Open Scope Z_scope.

Lemma pow53 : 2 ^ 32 < 2 ^ 53. Proof. reflexivity. Qed.
Lemma off_sign q : signed (TARGET <? u32 q) (off_target_of q).
Proof.
  unfold off_target_of. pose proof (u32_range q) as Hq. pose proof pow53. destruct (sub_sign TARGET (u32 q)) as [HS _]; [unfold TARGET; split; reflexivity|lia|].
  destruct (f_of_Z_exact TARGET ltac:(unfold TARGET; split; reflexivity)) as (m & e & E & _). rewrite E at 2.
  apply (signed_div _ false _ m e) in HS. rewrite xorb_false_r in HS. exact HS.
Qed.
Lemma off_small q : u32 q <= TARGET -> small 56 (off_target_of q).
Proof.
  intros H. unfold off_target_of. pose proof (u32_range q) as Hq. assert (HS : small 18 (f_sub (f_of_Z TARGET) (f_of_Z (u32 q)))).
  { apply (small_sub TARGET (u32 q) 17); [split; reflexivity|split; [apply Hq|exact H]|reflexivity|lia]. }
  replace (f_of_Z TARGET) with (S754_finite false 6871947673600000 (-36)) at 2 by reflexivity.
  apply (small_div 18 _ false 6871947673600000 (-36)) in HS; [|lia]. 
  destruct (f_div _ _); unfold small in *; auto. destruct HS as [H1 H2]. split; [lia|]. eapply Z.lt_le_trans; [exact H2|]. apply pow2_le. lia.
Qed.
Lemma grown_down q bytes cwnd : TARGET < u32 q -> 0 <= bytes < 2 ^ 32 -> 0 < cwnd < 2 ^ 32 -> grown_cwnd (off_target_of q) bytes cwnd <= cwnd.
Proof.
  intros H Hb Hc. pose proof pow53. pose proof (off_sign q) as HS. replace (TARGET <? u32 q) with true in HS by lia.
  unfold grown_cwnd. cbv zeta. apply add_down; [lia|].
  apply (signed_mul false _ (f_of_Z 1)) in HS; [|reflexivity]. apply (signed_mul _ false _ (f_of_Z bytes)) in HS; [|apply f_of_Z_class; lia].
  apply (signed_mul _ false _ (f_of_Z MSS)) in HS; [|apply f_of_Z_class; split; [discriminate|reflexivity]].
  destruct (f_of_Z_exact cwnd ltac:(lia)) as (m & e & -> & _). apply (signed_div _ false _ m e) in HS. cbn [xorb] in HS.
  destruct (f_div _ _) as [s|[]| |[] ? ?]; cbn in HS; (exact I || discriminate).
Qed.
Lemma grown_up q bytes cwnd : u32 q <= TARGET -> 0 <= bytes < 2 ^ 32 -> 0 < cwnd < 2 ^ 32 -> cwnd <= grown_cwnd (off_target_of q) bytes cwnd.
Proof.
  intros H Hb Hc. pose proof pow53. pose proof (off_sign q) as HS. replace (TARGET <? u32 q) with false in HS by lia.
  pose proof (off_small q H) as HF. unfold grown_cwnd. cbv zeta. apply add_up; [lia|].
  apply (signed_mul false _ (f_of_Z 1)) in HS; [|reflexivity].
  apply (small_mul 1 56 (f_of_Z 1)) in HF; [|cbn; lia|lia]. apply small_fin in HF.
  pose proof (fin_mul _ (f_of_Z bytes) HF (proj2 (f_of_Z_class bytes ltac:(lia)))) as HN.
  apply (signed_mul _ false _ (f_of_Z bytes)) in HS; [|apply f_of_Z_class; lia].
  apply (signed_mul _ false _ (f_of_Z MSS)) in HS; [|apply f_of_Z_class; split; [discriminate|reflexivity]].
  destruct (f_of_Z_exact MSS ltac:(unfold MSS; split; reflexivity)) as (m1 & e1 & E1 & _). rewrite E1 in *. apply (not_nan_mul _ false m1 e1) in HN.
  destruct (f_of_Z_exact cwnd ltac:(lia)) as (m & e & -> & _). apply (signed_div _ false _ m e) in HS. apply (not_nan_div _ false m e) in HN. cbn [xorb] in HS.
  destruct (f_div _ _) as [s|[]| |[] ? ?]; cbn in HS; (exact I || discriminate || now elim HN).
Qed.

(** What [process_ack] does to the window: the measured queuing delay is the one of the state it leaves. *)
Definition measured (k : socket) : Z := filtered_current_delay k - min_base_delay k.
Lemma u32_i64 z : u32 (i64 z) = u32 z.
Proof.
  rewrite !u32_eq. unfold i64, swrap. cbv zeta. assert (HM : (z mod 2 ^ 64) mod 2 ^ 32 = z mod 2 ^ 32).
  { change (2 ^ 64) with (2 ^ 32 * 2 ^ 32). rewrite Z.rem_mul_r by lia. rewrite Z.mul_comm, Z_mod_plus_full. apply Zmod_mod. }
  transitivity ((z mod 2 ^ 64) mod 2 ^ 32); [|exact HM]. destruct (_ <? _); [reflexivity|].
  rewrite <- (Z_mod_plus_full (_ - _) (2 ^ 32)). change (2 ^ 64) with (2 ^ 32 * 2 ^ 32) at 2. f_equal. change (2 ^ 32) with 4294967296. lia.
Qed.
Lemma queuing_delay_value s : wp queuing_delay (fun o t => t = s /\ match o with Ret q => u32 q = u32 (measured (sk s)) | Fail (Panic _) => True | _ => False end) s.
Proof.
  unfold queuing_delay, wp, bind, get_sk, ck_i64, arith, measured. destruct (_ && _); cbn [fst snd]; (split; [reflexivity|]); [exact I|apply u32_i64].
Qed.
Lemma measured_frame k k' : s_current_delays k = s_current_delays k' -> s_base_delays k = s_base_delays k' -> measured k = measured k'.
Proof. unfold measured, filtered_current_delay, min_base_delay. now intros -> ->. Qed.
Definition window_after (i : nat) (s s' : st) : Prop := exists q, u32 q = u32 (measured (sk s')) /\ s_curr_window (sk s') = s_curr_window (sk s) /\
  s_cwnd (sk s') = Z.max (Z.min (grown_cwnd (off_target_of q) (u32 (sum_len (firstn (i + 1) (s_send_window (sk s))))) (s_cwnd (sk s))) (u32 (s_curr_window (sk s) + 1400))) 2800.
Lemma process_ack_window i s s' : process_ack i s = (Ret tt, s') -> window_after i s s'.
Proof.
  intros H. assert (HW : wp (process_ack i) (fun o s' => match o with Ret _ => window_after i s s' | _ => True end) s); [|unfold wp in HW; rewrite H in HW; exact HW].
  clear H s'. unfold process_ack. do 2 wstep. cbv zeta. do 3 wstep. apply wp_unwrap; [|intros; exact I]. intros p Hp. cbv zeta. sproj_in Hp.
  unfold update_base_delay, update_current_delay. do 4 wstep. sproj. wstep.
  eapply wp_conseq; [apply (queuing_delay_value)|]. intros [q|[]] t [-> HH]; cbv beta iota in HH |- *; try exact I; try contradiction.
  unfold update_congestion_window. do 3 wstep. cbv zeta. do 2 wstep. sproj. wstep; wstep; [intros; exact I|intros _]. wstep. sproj.
  wstep. eapply wp_conseq; [apply (queuing_delay_value)|]. intros [q'|[]] t [-> HH2]; cbv beta iota in HH2 |- *; try exact I; try contradiction.
  wstep; wstep; [intros; exact I|intros _].
  match goal with |- wp (update_congestion_timeout ?d) _ ?t => pose proof (update_congestion_timeout_val d t) as HV end.
  eapply wp_conseq; [apply HV|]. intros [[]|] t HT; [|exact I]. cbv beta iota in HT. rewrite HT. clear HV HT. exists q.
  split; [rewrite HH; f_equal; apply measured_frame; frame; reflexivity|].
  unfold current_delay_socket. frame. frame. split; reflexivity.
Qed.
