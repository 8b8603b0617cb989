(** Proofs about the packet codec model. *)
From Verif Require Export BaseProofs Packet SpecWire.
Require Import ZifyBool ZifyNat ZifyN.
Local Open Scope Z_scope.
Ltac Zify.zify_post_hook ::= Z.div_mod_to_equations.

Lemma is_none_from b : is_none (exttype_from b) = Byte.eqb b x00.
Proof. destruct b; reflexivity. Qed.
Lemma exttype_to_from b : exttype_to_u8 (exttype_from b) = b.
Proof. destruct b; reflexivity. Qed.
Lemma exttype_from_inj a b : exttype_from a = exttype_from b -> a = b.
Proof. intros H. rewrite <- (exttype_to_from a), <- (exttype_to_from b), H. reflexivity. Qed.
Lemma exttype_from_none b : exttype_from b = ENone -> b = x00.
Proof. intros H. apply (exttype_from_inj b x00). exact H. Qed.
Lemma byte_eqb_false a b : a <> b -> Byte.eqb a b = false.
Proof. intros. destruct (Byte.eqb a b) eqn:E; auto. apply Byte.byte_dec_bl in E. contradiction. Qed.
Lemma is_none_nz b : b <> x00 -> is_none (exttype_from b) = false.
Proof. intros. rewrite is_none_from. now apply byte_eqb_false. Qed.
Lemma is_none_inv t : is_none t = true -> t = ENone.
Proof. destruct t; cbn; congruence. Qed.

(** nibble arithmetic *)
Lemma land15 z : 0 <= z -> Z.land z 15 = z mod 16.
Proof. intros. change 15 with (Z.ones 4). rewrite Z.land_ones by lia. reflexivity. Qed.
Lemma shiftr4 z : Z.shiftr z 4 = z / 16.
Proof. rewrite Z.shiftr_div_pow2 by lia. reflexivity. Qed.
Lemma type_byte t v : 0 <= v < 16 ->
  Z.lor (Z.shiftl (ptype_to_u8 t) 4) v = 16 * type_code t + v.
Proof.
  intros H.
  assert (v = 0 \/ v = 1 \/ v = 2 \/ v = 3 \/ v = 4 \/ v = 5 \/ v = 6 \/ v = 7 \/ v = 8 \/ v = 9 \/ v = 10 \/
          v = 11 \/ v = 12 \/ v = 13 \/ v = 14 \/ v = 15) as D by lia.
  repeat (destruct D as [->|D]; [destruct t; reflexivity|]). subst v. destruct t; reflexivity.
Qed.
Lemma type_code_range t : 0 <= type_code t <= 4.
Proof. destruct t; cbn; lia. Qed.
Lemma ptype_try_from_code t : ptype_try_from (type_code t) = Ok t.
Proof. destruct t; reflexivity. Qed.
Lemma ptype_try_from_ok n t : ptype_try_from n = Ok t -> n = type_code t.
Proof.
  unfold ptype_try_from. destruct n as [|p|p]; try (intros [= <-]; reflexivity); try discriminate.
  destruct p as [[[]|[]|]|[[]|[[]|[]|]|]|]; intros [= <-]; reflexivity.
Qed.
Lemma ptype_try_from_err n e : ptype_try_from n = Err e -> e = InvalidPacketType n /\ ~ (0 <= n <= 4).
Proof.
  unfold ptype_try_from. destruct n as [|p|p]; try discriminate.
  - destruct p as [[[]|[]|]|[[]|[[]|[]|]|]|]; intros [= <-]; split; (reflexivity || lia).
  - intros [= <-]; split; (reflexivity || lia).
Qed.

(** ** Header layout *)
Lemma wire_header_length h t : length (wire_header h t) = 20%nat.
Proof. unfold wire_header. cbn [length]. rewrite !app_length, !be_encode_length. reflexivity. Qed.

Lemma nth_app_l {A} n (a b : list A) d : (n < length a)%nat -> nth n (a ++ b) d = nth n a d.
Proof. apply app_nth1. Qed.

Lemma skipn_app_eq {A} n (a b : list A) : length a = n -> skipn n (a ++ b) = b.
Proof. intros <-. rewrite skipn_app, skipn_all, Nat.sub_diag. reflexivity. Qed.
Lemma firstn_app_eq {A} n (a b : list A) : length a = n -> firstn n (a ++ b) = a.
Proof. intros <-. rewrite firstn_app, firstn_all, Nat.sub_diag. cbn. apply app_nil_r. Qed.

Lemma field_at off n pre v rest : length pre = off ->
  field off n (pre ++ be_encode n v ++ rest) = v mod 2 ^ (8 * Z.of_nat n).
Proof.
  intros H. unfold field. rewrite skipn_app_eq by exact H.
  rewrite firstn_app_eq by apply be_encode_length. apply be_decode_encode.
Qed.

(** A packet split as header fields + rest, with raw field values. *)
Definition raw (b0 b1 : byte) (cid ts tsd wnd sq ak : Z) (rest : list byte) : packet :=
  b0 :: b1 :: be_encode 2 cid ++ be_encode 4 ts ++ be_encode 4 tsd ++ be_encode 4 wnd
  ++ be_encode 2 sq ++ be_encode 2 ak ++ rest.

Lemma raw_wire h exts pl : wire h exts pl =
  raw (z2b (16 * type_code (h_type h) + 1)) (first_type exts) (h_cid h) (h_ts h) (h_tsd h) (h_wnd h)
      (h_seq h) (h_ack h) (wire_exts exts ++ pl).
Proof. unfold wire, wire_header, raw. cbn [app]. rewrite <- !app_assoc. reflexivity. Qed.

Lemma raw_length b0 b1 cid ts tsd wnd sq ak rest :
  length (raw b0 b1 cid ts tsd wnd sq ak rest) = (20 + length rest)%nat.
Proof. unfold raw. cbn [length]. rewrite !app_length, !be_encode_length. reflexivity. Qed.

Section RawFields.
  Variables (b0 b1 : byte) (cid ts tsd wnd sq ak : Z) (rest : list byte).
  Notation R := (raw b0 b1 cid ts tsd wnd sq ak rest).
  Let e2 := be_encode_length 2. Let e4 := be_encode_length 4.

  Lemma raw_cid : connection_id R = u16 cid.
  Proof. apply (field_at 2 2 [b0; b1] cid _ eq_refl). Qed.
  Lemma raw_ts : timestamp R = u32 ts.
  Proof.
    unfold timestamp, raw.
    replace (b0 :: b1 :: _) with ((b0 :: b1 :: be_encode 2 cid) ++ be_encode 4 ts ++ be_encode 4 tsd
      ++ be_encode 4 wnd ++ be_encode 2 sq ++ be_encode 2 ak ++ rest) by (cbn [app]; rewrite <- ?app_assoc; reflexivity).
    apply field_at. cbn [length]. now rewrite be_encode_length.
  Qed.
  Lemma raw_tsd : timestamp_difference R = u32 tsd.
  Proof.
    unfold timestamp_difference, raw.
    replace (b0 :: b1 :: _) with ((b0 :: b1 :: be_encode 2 cid ++ be_encode 4 ts) ++ be_encode 4 tsd
      ++ be_encode 4 wnd ++ be_encode 2 sq ++ be_encode 2 ak ++ rest) by (cbn [app]; rewrite <- ?app_assoc; reflexivity).
    apply field_at. cbn [length]. now rewrite app_length, !be_encode_length.
  Qed.
  Lemma raw_wnd : wnd_size R = u32 wnd.
  Proof.
    unfold wnd_size, raw.
    replace (b0 :: b1 :: _) with ((b0 :: b1 :: be_encode 2 cid ++ be_encode 4 ts ++ be_encode 4 tsd)
      ++ be_encode 4 wnd ++ be_encode 2 sq ++ be_encode 2 ak ++ rest) by (cbn [app]; rewrite <- ?app_assoc; reflexivity).
    apply field_at. cbn [length]. now rewrite !app_length, !be_encode_length.
  Qed.
  Lemma raw_seq : seq_nr R = u16 sq.
  Proof.
    unfold seq_nr, raw.
    replace (b0 :: b1 :: _) with ((b0 :: b1 :: be_encode 2 cid ++ be_encode 4 ts ++ be_encode 4 tsd
      ++ be_encode 4 wnd) ++ be_encode 2 sq ++ be_encode 2 ak ++ rest) by (cbn [app]; rewrite <- ?app_assoc; reflexivity).
    apply field_at. cbn [length]. now rewrite !app_length, !be_encode_length.
  Qed.
  Lemma raw_ack : ack_nr R = u16 ak.
  Proof.
    unfold ack_nr, raw.
    replace (b0 :: b1 :: _) with ((b0 :: b1 :: be_encode 2 cid ++ be_encode 4 ts ++ be_encode 4 tsd
      ++ be_encode 4 wnd ++ be_encode 2 sq) ++ be_encode 2 ak ++ rest) by (cbn [app]; rewrite <- ?app_assoc; reflexivity).
    apply field_at. cbn [length]. now rewrite !app_length, !be_encode_length.
  Qed.
  Lemma raw_nth0 : nth 0 R x00 = b0. Proof. reflexivity. Qed.
  Lemma raw_nth1 : nth 1 R x00 = b1. Proof. reflexivity. Qed.
  Lemma raw_skip : skipn 20 R = rest.
  Proof.
    unfold raw.
    replace (b0 :: b1 :: _) with ((b0 :: b1 :: be_encode 2 cid ++ be_encode 4 ts ++ be_encode 4 tsd
      ++ be_encode 4 wnd ++ be_encode 2 sq ++ be_encode 2 ak) ++ rest) by (cbn [app]; rewrite <- ?app_assoc; reflexivity).
    apply skipn_app_eq. cbn [length]. now rewrite !app_length, !be_encode_length.
  Qed.

  (** setters on raw packets *)
  Lemma set_field_at off n pre v old post : length pre = off -> length old = n ->
    set_field off n v (pre ++ old ++ post) = pre ++ be_encode n v ++ post.
  Proof.
    intros Hp Ho. unfold set_field. rewrite firstn_app_eq by exact Hp.
    rewrite (skipn_app (off + n)), (skipn_all2 pre) by lia.
    replace (off + n - length pre)%nat with n by lia. rewrite skipn_app_eq by exact Ho. reflexivity.
  Qed.
  Lemma raw_set_cid v : set_connection_id v R = raw b0 b1 v ts tsd wnd sq ak rest.
  Proof. unfold set_connection_id, raw. exact (set_field_at 2 2 [b0;b1] v _ _ eq_refl (be_encode_length 2 cid)). Qed.
  Lemma raw_set_ts v : set_timestamp v R = raw b0 b1 cid v tsd wnd sq ak rest.
  Proof.
    unfold set_timestamp, raw.
    pose proof (set_field_at 4 4 (b0 :: b1 :: be_encode 2 cid) v (be_encode 4 ts) (be_encode 4 tsd
      ++ be_encode 4 wnd ++ be_encode 2 sq ++ be_encode 2 ak ++ rest)) as H.
    cbn [app] in H. rewrite <- ?app_assoc in H. apply H; cbn [length]; now rewrite ?app_length, ?be_encode_length.
  Qed.
  Lemma raw_set_tsd v : set_timestamp_difference v R = raw b0 b1 cid ts (u32 v) wnd sq ak rest.
  Proof.
    unfold set_timestamp_difference, raw.
    pose proof (set_field_at 8 4 (b0 :: b1 :: be_encode 2 cid ++ be_encode 4 ts) (u32 v) (be_encode 4 tsd)
      (be_encode 4 wnd ++ be_encode 2 sq ++ be_encode 2 ak ++ rest)) as H.
    cbn [app] in H. rewrite <- ?app_assoc in H. apply H; cbn [length]; now rewrite ?app_length, ?be_encode_length.
  Qed.
  Lemma raw_set_wnd v : set_wnd_size v R = raw b0 b1 cid ts tsd v sq ak rest.
  Proof.
    unfold set_wnd_size, raw.
    pose proof (set_field_at 12 4 (b0 :: b1 :: be_encode 2 cid ++ be_encode 4 ts ++ be_encode 4 tsd) v (be_encode 4 wnd)
      (be_encode 2 sq ++ be_encode 2 ak ++ rest)) as H.
    cbn [app] in H. rewrite <- ?app_assoc in H. apply H; cbn [length]; now rewrite ?app_length, ?be_encode_length.
  Qed.
  Lemma raw_set_seq v : set_seq_nr v R = raw b0 b1 cid ts tsd wnd v ak rest.
  Proof.
    unfold set_seq_nr, raw.
    pose proof (set_field_at 16 2 (b0 :: b1 :: be_encode 2 cid ++ be_encode 4 ts ++ be_encode 4 tsd ++ be_encode 4 wnd) v (be_encode 2 sq)
      (be_encode 2 ak ++ rest)) as H.
    cbn [app] in H. rewrite <- ?app_assoc in H. apply H; cbn [length]; now rewrite ?app_length, ?be_encode_length.
  Qed.
  Lemma raw_set_ack v : set_ack_nr v R = raw b0 b1 cid ts tsd wnd sq v rest.
  Proof.
    unfold set_ack_nr, raw.
    pose proof (set_field_at 18 2 (b0 :: b1 :: be_encode 2 cid ++ be_encode 4 ts ++ be_encode 4 tsd ++ be_encode 4 wnd ++ be_encode 2 sq) v (be_encode 2 ak)
      rest) as H.
    cbn [app] in H. rewrite <- ?app_assoc in H. apply H; cbn [length]; now rewrite ?app_length, ?be_encode_length.
  Qed.
  Lemma raw_set_type t : set_type t R = raw (z2b (16 * type_code t + b2z b0 mod 16)) b1 cid ts tsd wnd sq ak rest.
  Proof.
    unfold set_type. rewrite raw_nth0, Z.land_comm, land15 by apply b2z_range.
    rewrite type_byte by (pose proof (b2z_range b0); lia). reflexivity.
  Qed.
End RawFields.

(** Every byte string of length >= 20 is a [raw] with in-range fields. *)
Lemma raw_surj p : (20 <= length p)%nat ->
  exists b0 b1 cid ts tsd wnd sq ak rest,
    p = raw b0 b1 cid ts tsd wnd sq ak rest /\
    0 <= cid < 2^16 /\ 0 <= ts < 2^32 /\ 0 <= tsd < 2^32 /\ 0 <= wnd < 2^32 /\ 0 <= sq < 2^16 /\ 0 <= ak < 2^16.
Proof.
  intros H.
  do 20 (destruct p as [|?b p]; [cbn [length] in H; lia|]).
  exists b, b0, (be_decode [b1;b2]), (be_decode [b3;b4;b5;b6]), (be_decode [b7;b8;b9;b10]),
    (be_decode [b11;b12;b13;b14]), (be_decode [b15;b16]), (be_decode [b17;b18]), p.
  split.
  - unfold raw.
    pose proof (be_encode_decode [b1;b2]) as H1. pose proof (be_encode_decode [b3;b4;b5;b6]) as H2.
    pose proof (be_encode_decode [b7;b8;b9;b10]) as H3. pose proof (be_encode_decode [b11;b12;b13;b14]) as H4.
    pose proof (be_encode_decode [b15;b16]) as H5. pose proof (be_encode_decode [b17;b18]) as H6.
    cbn [length] in *. rewrite H1, H2, H3, H4, H5, H6.
    reflexivity.
  - pose proof (be_decode_range [b1;b2]). pose proof (be_decode_range [b3;b4;b5;b6]).
    pose proof (be_decode_range [b7;b8;b9;b10]). pose proof (be_decode_range [b11;b12;b13;b14]).
    pose proof (be_decode_range [b15;b16]). pose proof (be_decode_range [b17;b18]).
    repeat (split; [assumption|]). assumption.
Qed.

(** ** Extension chains *)
Lemma wire_exts_length_pos e exts : (2 <= length (wire_exts (e :: exts)))%nat.
Proof. destruct e. cbn [wire_exts length]. lia. Qed.

Lemma b2n_z2b_zlen d : 0 < @zlen byte d < 256 -> b2n (z2b (zlen d)) = length d.
Proof. intros. unfold b2n. rewrite z2b_small by lia. unfold zlen. lia. Qed.

Lemma nth_error_app_at {A} (pre : list A) x post : nth_error (pre ++ x :: post) (length pre) = Some x.
Proof. induction pre; cbn; auto. Qed.
Lemma nth_error_app_at1 {A} (pre : list A) x y post : nth_error (pre ++ x :: y :: post) (length pre + 1) = Some y.
Proof. induction pre; cbn; auto. Qed.

Lemma check_loop_wire fuel pre exts pl :
  Forall wf_ext exts -> (length (wire_exts exts) < fuel)%nat ->
  check_loop fuel (pre ++ wire_exts exts ++ pl) (length pre) (exttype_from (first_type exts)) = CDone ENone.
Proof.
  revert pre exts; induction fuel as [|f IH]; intros pre exts Hwf Hf; [lia|].
  destruct exts as [|[t d] rest].
  - cbn [check_loop first_type exttype_from is_none negb]. now rewrite andb_false_r.
  - inversion Hwf as [|? ? [Ht [Hl Hm]] Hwf']; subst. cbn [fst snd] in *.
    cbn [wire_exts first_type] in *. set (L := z2b (zlen d)) in *.
    assert (HL : b2n L = length d) by now apply b2n_z2b_zlen.
    cbn [app check_loop]. cbv zeta.
    cbn [app length] in Hf. rewrite !app_length in Hf.
    rewrite is_none_nz by exact Ht. cbn [negb].
    replace (length pre <? length (pre ++ first_type rest :: L :: (d ++ wire_exts rest) ++ pl))%nat with true
      by (rewrite app_length; cbn [length]; lia).
    cbn [andb].
    rewrite nth_error_app_at, nth_error_app_at1, HL.
    replace (length (pre ++ _) <? length pre + 2)%nat with false by (rewrite app_length; cbn [length]; lia).
    unfold zlen in *.
    replace (length d =? 0)%nat with false by lia.
    replace (length d mod 4 =? 0)%nat with true by lia.
    replace (length (pre ++ _) <? length pre + 2 + length d)%nat with false
      by (rewrite app_length; cbn [length]; rewrite !app_length; lia).
    cbn [negb orb].
    replace (length pre + (length d + 2))%nat with (length (pre ++ first_type rest :: L :: d))
      by (rewrite app_length; cbn [length]; lia).
    replace (pre ++ first_type rest :: L :: (d ++ wire_exts rest) ++ pl)
      with ((pre ++ first_type rest :: L :: d) ++ wire_exts rest ++ pl)
      by (rewrite <- !app_assoc; cbn [app]; rewrite <- ?app_assoc; reflexivity).
    apply IH; [assumption|lia].
Qed.

Lemma nth_error_split' {A} (l : list A) n x : nth_error l n = Some x ->
  exists a b, l = a ++ x :: b /\ length a = n.
Proof. intros H. apply nth_error_split in H. exact H. Qed.

(** Inversion: a completed check exhibits the chain. *)
Lemma check_loop_inv fuel pre rest t :
  check_loop fuel (pre ++ rest) (length pre) (exttype_from t) = CDone ENone ->
  exists exts pl, Forall wf_ext exts /\ rest = wire_exts exts ++ pl /\ t = first_type exts.
Proof.
  revert pre rest t; induction fuel as [|f IH]; intros pre rest t H; [discriminate|].
  cbn [check_loop] in H. cbv zeta in H.
  destruct ((length pre <? length (pre ++ rest))%nat && negb (is_none (exttype_from t))) eqn:E.
  - apply andb_prop in E as [E1 E2]. rewrite is_none_from in E2.
    assert (Ht : t <> x00) by (intros ->; discriminate).
    destruct (length (pre ++ rest) <? length pre + 2)%nat eqn:E3; [discriminate|].
    rewrite app_length in E3.
    destruct rest as [|nt [|L rest]]; [cbn [length] in E3; lia | cbn [length] in E3; lia |].
    rewrite nth_error_app_at, nth_error_app_at1 in H.
    destruct ((b2n L =? 0)%nat || negb (b2n L mod 4 =? 0)%nat || (length (pre ++ nt :: L :: rest) <? length pre + 2 + b2n L)%nat) eqn:E4; [discriminate|].
    apply orb_false_elim in E4 as [E4 E5]. apply orb_false_elim in E4 as [E4 E6].
    rewrite app_length in E5. cbn [length] in E5.
    assert (Hlen : length (firstn (b2n L) rest) = b2n L) by (rewrite firstn_length; lia).
    rewrite <- (firstn_skipn (b2n L) rest) in H.
    set (d := firstn (b2n L) rest) in *. set (r := skipn (b2n L) rest) in *.
    replace (length pre + (b2n L + 2))%nat with (length (pre ++ nt :: L :: d)) in H
      by (rewrite app_length; cbn [length]; lia).
    replace (pre ++ nt :: L :: d ++ r) with ((pre ++ nt :: L :: d) ++ r) in H
      by (rewrite <- !app_assoc; cbn [app]; rewrite <- ?app_assoc; reflexivity).
    apply IH in H as (exts & pl & Hwf & Hr & Hnt).
    exists ((t, d) :: exts), pl. split; [|split].
    + constructor; [|assumption]. unfold wf_ext; cbn [fst snd]. unfold zlen.
      rewrite Hlen. pose proof (b2z_range L) as HbL. split; [assumption|].
      clear - E4 E6 HbL. unfold b2n in *. lia.
    + cbn [wire_exts]. rewrite <- Hnt. cbn [app]. f_equal. f_equal.
      * rewrite <- (z2b_b2z L). f_equal. unfold zlen. rewrite Hlen. unfold b2n. pose proof (b2z_range L). lia.
      * rewrite <- app_assoc, <- Hr. unfold d, r. now rewrite firstn_skipn.
    + reflexivity.
  - injection H as H. apply exttype_from_none in H. exists [], rest. subst t.
    split; [constructor|]. split; reflexivity.
Qed.

Lemma check_loop_safe fuel data index ty :
  (length data - index < fuel)%nat ->
  (exists t, check_loop fuel data index ty = CDone t) \/ (exists e, check_loop fuel data index ty = CErr e /\ (e = InvalidPacketLength \/ e = InvalidExtensionLength)).
Proof.
  revert index ty; induction fuel as [|f IH]; intros index ty Hf; [lia|].
  cbn [check_loop]. cbv zeta.
  destruct ((index <? length data)%nat && negb (is_none ty)) eqn:E; [|left; eauto].
  apply andb_prop in E as [E1 _].
  destruct (length data <? index + 2)%nat eqn:E2; [right; eauto|].
  destruct (nth_error data (index + 1)) as [l|] eqn:N1;
    [|apply nth_error_None in N1; lia].
  destruct (nth_error data index) as [t|] eqn:N0;
    [|apply nth_error_None in N0; lia].
  destruct (_ || _); [right; eauto|]. apply IH. lia.
Qed.

Lemma payload_loop_wire fuel pre exts pl :
  Forall wf_ext exts -> (length (wire_exts exts) < fuel)%nat ->
  payload_loop fuel (pre ++ wire_exts exts ++ pl) (length pre) (exttype_from (first_type exts))
  = Some (length pre + length (wire_exts exts))%nat.
Proof.
  revert pre exts; induction fuel as [|f IH]; intros pre exts Hwf Hf; [lia|].
  destruct exts as [|[t d] rest].
  - cbn [payload_loop first_type exttype_from is_none negb wire_exts length].
    rewrite andb_false_r. now rewrite Nat.add_0_r.
  - inversion Hwf as [|? ? [Ht [Hl Hm]] Hwf']; subst. cbn [fst snd] in *.
    cbn [wire_exts first_type] in *. set (L := z2b (zlen d)) in *.
    assert (HL : b2n L = length d) by now apply b2n_z2b_zlen.
    cbn [app payload_loop]. cbn [app length] in Hf. rewrite !app_length in Hf.
    rewrite is_none_nz by exact Ht. cbn [negb].
    replace (length pre <? length (pre ++ first_type rest :: L :: (d ++ wire_exts rest) ++ pl))%nat with true
      by (rewrite app_length; cbn [length]; lia).
    cbn [andb].
    rewrite nth_error_app_at, nth_error_app_at1, HL.
    replace (length pre + (length d + 2))%nat with (length (pre ++ first_type rest :: L :: d))
      by (rewrite app_length; cbn [length]; lia).
    replace (pre ++ first_type rest :: L :: (d ++ wire_exts rest) ++ pl)
      with ((pre ++ first_type rest :: L :: d) ++ wire_exts rest ++ pl)
      by (rewrite <- !app_assoc; cbn [app]; rewrite <- ?app_assoc; reflexivity).
    rewrite IH by (assumption || lia). f_equal. rewrite app_length. cbn [length]. rewrite app_length. lia.
Qed.

Lemma extensions_loop_wire fuel pre exts pl :
  Forall wf_ext exts -> (length (wire_exts exts) < fuel)%nat ->
  extensions_loop fuel (pre ++ wire_exts exts ++ pl) (length pre) (exttype_from (first_type exts))
  = Some (map ext_view exts).
Proof.
  revert pre exts; induction fuel as [|f IH]; intros pre exts Hwf Hf; [lia|].
  destruct exts as [|[t d] rest].
  - reflexivity.
  - inversion Hwf as [|? ? [Ht [Hl Hm]] Hwf']; subst. cbn [fst snd] in *.
    cbn [wire_exts first_type] in *. set (L := z2b (zlen d)) in *.
    assert (HL : b2n L = length d) by now apply b2n_z2b_zlen.
    cbn [app extensions_loop]. cbv zeta. cbn [app length] in Hf. rewrite !app_length in Hf.
    rewrite is_none_nz by exact Ht.
    replace (length pre <? length (pre ++ first_type rest :: L :: (d ++ wire_exts rest) ++ pl))%nat with true
      by (rewrite app_length; cbn [length]; lia).
    rewrite nth_error_app_at, nth_error_app_at1, HL.
    replace (length pre + 2 + length d <=? length (pre ++ _))%nat with true
      by (rewrite app_length; cbn [length]; rewrite !app_length; lia).
    replace (length pre + (length d + 2))%nat with (length (pre ++ first_type rest :: L :: d))
      by (rewrite app_length; cbn [length]; lia).
    replace (pre ++ first_type rest :: L :: (d ++ wire_exts rest) ++ pl)
      with ((pre ++ first_type rest :: L :: d) ++ wire_exts rest ++ pl)
      by (rewrite <- !app_assoc; cbn [app]; rewrite <- ?app_assoc; reflexivity).
    rewrite IH by (assumption || lia). cbn [map]. f_equal. f_equal.
    unfold ext_view. cbn [fst snd]. f_equal.
    replace ((pre ++ first_type rest :: L :: d) ++ wire_exts rest ++ pl)
      with ((pre ++ [first_type rest; L]) ++ d ++ (wire_exts rest ++ pl))
      by (rewrite <- !app_assoc; cbn [app]; rewrite <- ?app_assoc; reflexivity).
    rewrite skipn_app_eq by (rewrite app_length; reflexivity).
    apply firstn_app_eq. reflexivity.
Qed.

(** ** Parsing *)
Lemma wire_app h exts pl : wire h exts pl = wire_header h (first_type exts) ++ wire_exts exts ++ pl.
Proof. reflexivity. Qed.

Lemma nth0_wire h exts pl : b2z (nth 0 (wire h exts pl) x00) = 16 * type_code (h_type h) + 1.
Proof. rewrite raw_wire, raw_nth0. pose proof (type_code_range (h_type h)). rewrite z2b_small by lia. reflexivity. Qed.
Lemma nth1_wire h exts pl : nth 1 (wire h exts pl) x00 = first_type exts.
Proof. rewrite raw_wire. apply raw_nth1. Qed.
Lemma nth_error1_wire h exts pl : nth_error (wire h exts pl) 1 = Some (first_type exts).
Proof. rewrite raw_wire. reflexivity. Qed.
Lemma wire_length h exts pl : length (wire h exts pl) = (20 + length (wire_exts exts) + length pl)%nat.
Proof. rewrite raw_wire, raw_length, app_length. lia. Qed.

Lemma header_try_from_wire h exts pl : exists hd, header_try_from (wire h exts pl) = Ok hd.
Proof.
  unfold header_try_from. rewrite wire_length. cbv zeta.
  change HEADER_SIZE with 20%nat. destruct (20 + _ + _ <? 20)%nat eqn:E; [lia|].
  rewrite nth0_wire. pose proof (type_code_range (h_type h)).
  rewrite land15, shiftr4 by lia.
  replace ((16 * type_code (h_type h) + 1) mod 16) with 1 by lia.
  replace ((16 * type_code (h_type h) + 1) / 16) with (type_code (h_type h)) by lia.
  cbn [Z.eqb negb Pos.eqb]. rewrite ptype_try_from_code. eauto.
Qed.

Lemma check_extensions_wire h exts pl : Forall wf_ext exts -> check_extensions (wire h exts pl) = Some (Ok tt).
Proof.
  intros Hwf. unfold check_extensions. rewrite nth1_wire, wire_length. cbv zeta.
  change HEADER_SIZE with 20%nat. destruct (20 + _ + _ <? 20)%nat eqn:E; [lia|].
  rewrite wire_app.
  rewrite <- (wire_header_length h (first_type exts)) at 3.
  rewrite check_loop_wire by (assumption || lia).
  destruct exts as [|e exts].
  - cbn. now rewrite andb_false_r.
  - pose proof (wire_exts_length_pos e exts).
    replace (20 + length (wire_exts (e :: exts)) + length pl =? 20)%nat with false by lia. reflexivity.
Qed.

Lemma parse_wire h exts pl : Forall wf_ext exts ->
  packet_try_from (wire h exts pl) = Some (Ok (wire h exts pl)).
Proof.
  intros Hwf. unfold packet_try_from. rewrite check_extensions_wire by assumption.
  destruct (header_try_from_wire h exts pl) as [hd ->]. reflexivity.
Qed.

Lemma header_try_from_ok_inv bs hd : header_try_from bs = Ok hd ->
  (20 <= length bs)%nat /\ exists t, b2z (nth 0 bs x00) = 16 * type_code t + 1.
Proof.
  unfold header_try_from. change HEADER_SIZE with 20%nat. cbv zeta.
  destruct (length bs <? 20)%nat eqn:E; [discriminate|].
  pose proof (b2z_range (nth 0 bs x00)). rewrite land15, shiftr4 by lia.
  destruct (negb _) eqn:E1; [discriminate|].
  destruct (ptype_try_from _) as [t|] eqn:E2; [|discriminate]. intros _.
  apply ptype_try_from_ok in E2. split; [lia|]. exists t. lia.
Qed.

Lemma parse_inv bs p : packet_try_from bs = Some (Ok p) ->
  p = bs /\ exists h exts pl, wf_hdr h /\ Forall wf_ext exts /\ bs = wire h exts pl.
Proof.
  unfold packet_try_from. destruct (check_extensions bs) as [[[]|e]|] eqn:C;
    [|destruct (header_try_from bs); discriminate|discriminate].
  destruct (header_try_from bs) as [hd|] eqn:H; [|discriminate]. intros [= <-]. split; [reflexivity|].
  apply header_try_from_ok_inv in H as [Hlen [t Ht]].
  destruct (raw_surj bs Hlen) as (b0 & b1 & cid & ts & tsd & wnd & sq & ak & rest & Hbs & R).
  unfold check_extensions in C. cbv zeta in C. change HEADER_SIZE with 20%nat in C.
  destruct (length bs <? 20)%nat; [discriminate|].
  destruct ((length bs =? 20)%nat && _) ; [discriminate|].
  destruct (check_loop _ _ _ _) as [ty| | |] eqn:CL; try discriminate.
  destruct (is_none ty) eqn:N; [|discriminate]. apply is_none_inv in N as ->.
  assert (Hnth : nth 1 bs x00 = b1) by (subst bs; reflexivity). rewrite Hnth in CL.
  rewrite <- (firstn_skipn 20 bs) in CL at 2.
  assert (H20 : length (firstn 20 bs) = 20%nat) by (rewrite firstn_length; lia).
  rewrite <- H20 in CL at 3. apply check_loop_inv in CL as (exts & pl & Hwf & Hrest & Hb1).
  subst b1. assert (Hr : rest = wire_exts exts ++ pl) by (rewrite <- Hrest, Hbs; symmetry; apply raw_skip).
  exists (mkHdr t cid ts tsd wnd sq ak), exts, pl. split; [|split; [assumption|]].
  - unfold wf_hdr; cbn. tauto.
  - rewrite raw_wire. cbn [h_type h_cid h_ts h_tsd h_wnd h_seq h_ack]. rewrite Hbs. rewrite <- Hr. f_equal.
    subst bs. rewrite raw_nth0 in Ht. rewrite <- Ht. symmetry. apply z2b_b2z.
Qed.

Lemma parse_total bs : exists r, packet_try_from bs = Some r.
Proof.
  unfold packet_try_from. assert (exists c, check_extensions bs = Some c) as [c ->].
  { unfold check_extensions. cbv zeta. destruct (_ <? _)%nat eqn:E; [eauto|].
    destruct (_ && _); [eauto|].
    destruct (check_loop_safe (S (length bs)) bs HEADER_SIZE (exttype_from (nth 1 bs x00))) as [[t ->]|[e [-> _]]]; [lia| |eauto].
    destruct (negb _); eauto. }
  destruct (header_try_from bs), c; eauto.
Qed.

(** ** Accessors on wire packets *)
Lemma get_type_wire h exts pl : get_type (wire h exts pl) = Some (h_type h).
Proof.
  unfold get_type. rewrite nth0_wire, shiftr4. pose proof (type_code_range (h_type h)).
  replace ((16 * type_code (h_type h) + 1) / 16) with (type_code (h_type h)) by lia.
  now rewrite ptype_try_from_code.
Qed.
Lemma get_version_wire h exts pl : get_version (wire h exts pl) = 1.
Proof.
  unfold get_version. rewrite nth0_wire. pose proof (type_code_range (h_type h)).
  rewrite land15 by lia. lia.
Qed.
Lemma payload_wire h exts pl : Forall wf_ext exts -> payload (wire h exts pl) = Some pl.
Proof.
  intros Hwf. unfold payload. rewrite nth_error1_wire, wire_length, wire_app.
  change HEADER_SIZE with 20%nat.
  rewrite <- (wire_header_length h (first_type exts)) at 2.
  rewrite payload_loop_wire by (assumption || lia). rewrite wire_header_length.
  rewrite (proj2 (Nat.leb_le _ _)) by lia. f_equal.
  rewrite app_assoc. apply skipn_app_eq. rewrite app_length, wire_header_length. reflexivity.
Qed.
Lemma extensions_wire h exts pl : Forall wf_ext exts -> extensions (wire h exts pl) = Some (map ext_view exts).
Proof.
  intros Hwf. unfold extensions. rewrite nth_error1_wire, wire_length, wire_app.
  change HEADER_SIZE with 20%nat.
  rewrite <- (wire_header_length h (first_type exts)) at 2.
  apply extensions_loop_wire; [assumption|lia].
Qed.

Lemma cid_wire h exts pl : connection_id (wire h exts pl) = u16 (h_cid h).
Proof. rewrite raw_wire. apply raw_cid. Qed.
Lemma ts_wire h exts pl : timestamp (wire h exts pl) = u32 (h_ts h).
Proof. rewrite raw_wire. apply raw_ts. Qed.
Lemma tsd_wire h exts pl : timestamp_difference (wire h exts pl) = u32 (h_tsd h).
Proof. rewrite raw_wire. apply raw_tsd. Qed.
Lemma wnd_wire h exts pl : wnd_size (wire h exts pl) = u32 (h_wnd h).
Proof. rewrite raw_wire. apply raw_wnd. Qed.
Lemma seq_wire h exts pl : seq_nr (wire h exts pl) = u16 (h_seq h).
Proof. rewrite raw_wire. apply raw_seq. Qed.
Lemma ack_wire h exts pl : ack_nr (wire h exts pl) = u16 (h_ack h).
Proof. rewrite raw_wire. apply raw_ack. Qed.
