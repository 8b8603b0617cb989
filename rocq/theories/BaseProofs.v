From Verif Require Export Base.
Require Import ZifyBool ZifyNat ZifyN.
Local Open Scope Z_scope.
Ltac Zify.zify_post_hook ::= Z.div_mod_to_equations.

Lemma b2z_range b : 0 <= b2z b < 256.
Proof. unfold b2z. pose proof (Byte.to_N_bounded b). lia. Qed.

Lemma z2b_b2z b : z2b (b2z b) = b.
Proof.
  unfold z2b. pose proof (b2z_range b) as H. rewrite Z.mod_small by lia.
  unfold b2z. rewrite N2Z.id, Byte.of_to_N. reflexivity.
Qed.

Lemma b2z_z2b z : b2z (z2b z) = z mod 256.
Proof.
  unfold z2b. destruct (Byte.of_N (Z.to_N (z mod 256))) as [b|] eqn:E.
  - apply Byte.to_of_N in E. unfold b2z. rewrite E. lia.
  - apply Byte.of_N_None_iff in E. lia.
Qed.

Lemma b2z_inj a b : b2z a = b2z b -> a = b.
Proof. intros H. rewrite <- (z2b_b2z a), <- (z2b_b2z b), H. reflexivity. Qed.

Lemma z2b_small z : 0 <= z < 256 -> b2z (z2b z) = z.
Proof. intros. rewrite b2z_z2b. apply Z.mod_small. lia. Qed.

(** Wraps *)
Lemma u16_range z : 0 <= u16 z < 65536.
Proof. unfold u16, wrap. change (2^16) with 65536. lia. Qed.
Lemma u32_range z : 0 <= u32 z < 4294967296.
Proof. unfold u32, wrap. change (2^32) with 4294967296. lia. Qed.
Lemma u64_range z : 0 <= u64 z < 18446744073709551616.
Proof. unfold u64, wrap. change (2^64) with 18446744073709551616. lia. Qed.
Lemma u16_small z : 0 <= z < 65536 -> u16 z = z.
Proof. unfold u16, wrap. change (2^16) with 65536. intros; apply Z.mod_small; lia. Qed.
Lemma u32_small z : 0 <= z < 4294967296 -> u32 z = z.
Proof. unfold u32, wrap. change (2^32) with 4294967296. intros; apply Z.mod_small; lia. Qed.
Lemma u64_small z : 0 <= z < 18446744073709551616 -> u64 z = z.
Proof. unfold u64, wrap. change (2^64) with 18446744073709551616. intros; apply Z.mod_small; lia. Qed.
Lemma u16_eq z : u16 z = z mod 65536. Proof. reflexivity. Qed.
Lemma u32_eq z : u32 z = z mod 4294967296. Proof. reflexivity. Qed.
Lemma u64_eq z : u64 z = z mod 18446744073709551616. Proof. reflexivity. Qed.
Lemma u16_u16 z : u16 (u16 z) = u16 z. Proof. apply u16_small, u16_range. Qed.
Lemma u32_u32 z : u32 (u32 z) = u32 z. Proof. apply u32_small, u32_range. Qed.

(** Lists *)
Lemma zlen_app {A} (a b : list A) : zlen (a ++ b) = zlen a + zlen b.
Proof. unfold zlen. rewrite app_length. lia. Qed.
Lemma zlen_nonneg {A} (a : list A) : 0 <= zlen a.
Proof. unfold zlen. lia. Qed.

Lemma list_set_length {A} i (x : A) l : length (list_set i x l) = length l.
Proof. revert i; induction l as [|h t IH]; intros [|i]; cbn; auto. Qed.
Lemma nth_list_set_eq {A} i (x d : A) l : (i < length l)%nat -> nth i (list_set i x l) d = x.
Proof. revert i; induction l as [|h t IH]; intros [|i]; cbn; intros H; try lia; auto. apply IH. lia. Qed.
Lemma nth_list_set_ne {A} i j (x d : A) l : i <> j -> nth j (list_set i x l) d = nth j l d.
Proof. revert i j; induction l as [|h t IH]; intros [|i] [|j]; cbn; intros H; try congruence; auto. Qed.
Lemma list_set_app {A} (a : list A) x y b : list_set (length a) x (a ++ y :: b) = a ++ x :: b.
Proof. induction a as [|h t IH]; cbn; congruence. Qed.
Lemma skipn_list_set {A} i n (x : A) l : (i < n)%nat -> skipn n (list_set i x l) = skipn n l.
Proof.
  revert i n; induction l as [|h t IH]; intros [|i] [|n]; cbn; intros H; try lia; auto.
  apply IH. lia.
Qed.
Lemma list_set_firstn_skipn {A} i (x : A) l : (i < length l)%nat ->
  list_set i x l = firstn i l ++ x :: skipn (S i) l.
Proof. revert i; induction l as [|h t IH]; intros [|i]; cbn; intros H; try lia; auto. f_equal. apply IH. lia. Qed.

Lemma position_some {A} (f : A -> bool) l i : position f l = Some i ->
  exists pre x post, l = pre ++ x :: post /\ length pre = i /\ f x = true /\ forallb (fun y => negb (f y)) pre = true.
Proof.
  revert i; induction l as [|h t IH]; cbn; intros i H; [discriminate|].
  destruct (f h) eqn:E.
  - injection H as <-. exists [], h, t. auto.
  - destruct (position f t) as [j|]; cbn in H; [|discriminate]. injection H as <-.
    destruct (IH j eq_refl) as (pre & x & post & -> & <- & Hx & Hpre).
    exists (h :: pre), x, post. cbn. rewrite E. auto.
Qed.
Lemma position_none {A} (f : A -> bool) l : position f l = None -> forall x, In x l -> f x = false.
Proof.
  induction l as [|h t IH]; cbn; intros H x [].
  - subst. destruct (f x); [discriminate|auto].
  - destruct (f h); [discriminate|]. destruct (position f t); [discriminate|]. auto.
Qed.
Lemma position_lt {A} (f : A -> bool) l i : position f l = Some i -> (i < length l)%nat.
Proof.
  intros H. destruct (position_some _ _ _ H) as (pre & x & post & -> & <- & _).
  rewrite app_length. cbn. lia.
Qed.
Lemma position_app_hit {A} (f : A -> bool) pre x post :
  forallb (fun y => negb (f y)) pre = true -> f x = true -> position f (pre ++ x :: post) = Some (length pre).
Proof.
  induction pre as [|h t IH]; cbn; intros Hp Hx.
  - now rewrite Hx.
  - apply andb_prop in Hp as [Hh Ht]. destruct (f h); [discriminate|]. now rewrite IH.
Qed.
Lemma position_none_intro {A} (f : A -> bool) l : (forall x, In x l -> f x = false) -> position f l = None.
Proof.
  induction l as [|h t IH]; cbn; intros H; auto.
  rewrite H by auto. rewrite IH; auto.
Qed.

(** chunks *)
Lemma chunks_fuel_concat {A} fuel n (l : list A) : (0 < n)%nat -> (length l <= fuel)%nat ->
  concat (chunks_fuel fuel n l) = l.
Proof.
  intros Hn. revert l; induction fuel as [|f IH]; intros l Hl.
  - destruct l; cbn in *; [reflexivity|lia].
  - destruct l as [|x l]; [reflexivity|]. cbn [chunks_fuel concat].
    rewrite IH. apply firstn_skipn. rewrite skipn_length. cbn [length] in *. lia.
Qed.
Lemma chunks_concat {A} n (l : list A) : (0 < n)%nat -> concat (chunks n l) = l.
Proof. intros; apply chunks_fuel_concat; auto. Qed.
Lemma chunks_fuel_sizes {A} fuel n (l : list A) c : (0 < n)%nat ->
  In c (chunks_fuel fuel n l) -> (0 < length c <= n)%nat.
Proof.
  intros Hn. revert l; induction fuel as [|f IH]; intros l.
  - destruct l; cbn; tauto.
  - destruct l as [|x l]; [cbn; tauto|]. cbn [chunks_fuel In]. intros [<-|H]; [|eauto].
    rewrite firstn_length. cbn [length]. lia.
Qed.
Lemma chunks_sizes {A} n (l : list A) c : (0 < n)%nat -> In c (chunks n l) -> (0 < length c <= n)%nat.
Proof. intros Hn; apply chunks_fuel_sizes; auto. Qed.

(** Big-endian *)
Lemma be_encode_length n v : length (be_encode n v) = n.
Proof. revert v; induction n as [|n IH]; cbn; intros; auto. rewrite app_length, IH. cbn. lia. Qed.
Lemma be_decode_app a b : be_decode (a ++ [b]) = be_decode a * 256 + b2z b.
Proof. unfold be_decode. rewrite fold_left_app. reflexivity. Qed.
Lemma be_decode_range bs : 0 <= be_decode bs < 2 ^ (8 * zlen bs).
Proof.
  induction bs as [|b bs IH] using rev_ind; [cbn; lia|].
  rewrite be_decode_app, zlen_app. unfold zlen at 2. cbn [length].
  pose proof (b2z_range b). pose proof (zlen_nonneg bs).
  replace (8 * (zlen bs + Z.of_nat 1)) with (8 * zlen bs + 8) by lia.
  rewrite Z.pow_add_r by lia. change (2^8) with 256. lia.
Qed.
Lemma be_decode_encode n v : be_decode (be_encode n v) = v mod 2 ^ (8 * Z.of_nat n).
Proof.
  revert v; induction n as [|n IH]; intros v.
  - cbn. rewrite Z.mod_1_r. reflexivity.
  - cbn [be_encode]. rewrite be_decode_app, IH, b2z_z2b.
    replace (8 * Z.of_nat (S n)) with (8 + 8 * Z.of_nat n) by lia.
    rewrite Z.pow_add_r by lia. change (2^8) with 256.
    rewrite Z.rem_mul_r by (try lia; apply Z.pow_pos_nonneg; lia). lia.
Qed.
Lemma be_encode_decode bs : be_encode (length bs) (be_decode bs) = bs.
Proof.
  induction bs as [|b bs IH] using rev_ind; [reflexivity|].
  rewrite app_length. cbn [length]. rewrite Nat.add_1_r. cbn [be_encode].
  rewrite be_decode_app. pose proof (b2z_range b).
  rewrite Z.div_add_l by lia. rewrite (Z.div_small (b2z b)), Z.add_0_r, IH by lia.
  f_equal. f_equal. rewrite <- (z2b_b2z b) at 2. unfold z2b.
  f_equal. f_equal. f_equal. rewrite Z.add_comm, Z.mod_add by lia. reflexivity.
Qed.
Lemma z2b_mod z : z2b (z mod 256) = z2b z.
Proof. unfold z2b. rewrite Z.mod_mod by lia. reflexivity. Qed.
