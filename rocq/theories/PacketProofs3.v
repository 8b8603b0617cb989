(** Statement-level lemmas for the codec properties. *)
From Verif Require Export PacketProofs2.
Require Import ZifyBool ZifyNat ZifyN.
Local Open Scope Z_scope.
Ltac Zify.zify_post_hook ::= Z.div_mod_to_equations.

Lemma be_encode_nth n v k : (k < n)%nat -> nth_error (be_encode n v) k = Some (z2b (v / 256 ^ Z.of_nat (n - 1 - k))).
Proof.
  revert v k; induction n as [|n IH]; intros v k H; [lia|]. cbn [be_encode].
  destruct (Nat.eq_dec k n) as [->|Hn].
  - rewrite nth_error_app2 by (rewrite be_encode_length; lia). rewrite be_encode_length, Nat.sub_diag.
    replace (S n - 1 - n)%nat with 0%nat by lia. cbn [nth_error]. now rewrite Z.div_1_r.
  - rewrite nth_error_app1 by (rewrite be_encode_length; lia). rewrite IH by lia. f_equal. f_equal.
    replace (S n - 1 - k)%nat with (S (n - 1 - k)) by lia.
    rewrite Nat2Z.inj_succ, Z.pow_succ_r by lia. rewrite Z.div_div by lia. reflexivity.
Qed.

Lemma set_field_patched off n v p : (off + n <= length p)%nat -> patched off n v p (set_field off n v p).
Proof.
  intros H. unfold set_field. assert (Hf : length (firstn off p) = off) by (rewrite firstn_length; lia).
  split; [|split].
  - rewrite !app_length, be_encode_length, skipn_length. lia.
  - intros i [Hi|Hi].
    + rewrite nth_error_app1 by lia. rewrite <- (firstn_skipn off p) at 2. now rewrite nth_error_app1 by lia.
    + rewrite nth_error_app2, nth_error_app2 by (rewrite ?be_encode_length; lia).
      rewrite be_encode_length, Hf. rewrite <- (firstn_skipn (off + n) p) at 2.
      rewrite (nth_error_app2 (firstn (off + n) p)) by (rewrite firstn_length; lia). f_equal. rewrite firstn_length. lia.
  - intros k Hk. rewrite nth_error_app2 by lia. rewrite Hf. replace (off + k - off)%nat with k by lia.
    rewrite nth_error_app1 by (rewrite be_encode_length; lia). now apply be_encode_nth.
Qed.

Ltac body_view_tac Hbs :=
  unfold body_view; rewrite Hbs; rewrite ?set_cid_wire, ?set_ts_wire, ?set_tsd_wire, ?set_wnd_wire, ?set_seq_wire, ?set_ack_wire;
  rewrite !get_type_wire, !get_version_wire, !extensions_wire, !payload_wire by assumption; reflexivity.

Ltac c04 :=
  intros p v H;
  split; [apply set_field_patched; lia|];
  split; [destruct (raw_surj p H) as (b0 & b1 & cid & ts & tsd & wnd & sq & ak & rest & -> & R);
    unfold header_view;
    rewrite ?raw_set_cid, ?raw_set_ts, ?raw_set_tsd, ?raw_set_wnd, ?raw_set_seq, ?raw_set_ack,
      !raw_cid, !raw_ts, !raw_tsd, !raw_wnd, !raw_seq, !raw_ack; try reflexivity;
    unfold u32, wrap; rewrite Zmod_mod; reflexivity|];
  intros q HP; apply parse_inv in HP as [Hq (h & exts & pl & _ & Hwf & Hbs)]; rewrite Hq;
  (split; [rewrite Hbs, ?set_cid_wire, ?set_ts_wire, ?set_tsd_wire, ?set_wnd_wire, ?set_seq_wire, ?set_ack_wire; now apply parse_wire
          | body_view_tac Hbs]).

Lemma c04_cid : forall p v, (20 <= length p)%nat ->
  patched 2 2 v p (set_connection_id v p) /\
  header_view (set_connection_id v p) = (u16 v, timestamp p, timestamp_difference p, wnd_size p, seq_nr p, ack_nr p) /\
  forall q, packet_try_from p = Some (Ok q) ->
    packet_try_from (set_connection_id v p) = Some (Ok (set_connection_id v p)) /\ body_view (set_connection_id v p) = body_view q.
Proof. c04. Qed.
Lemma c04_ts : forall p v, (20 <= length p)%nat ->
  patched 4 4 v p (set_timestamp v p) /\
  header_view (set_timestamp v p) = (connection_id p, u32 v, timestamp_difference p, wnd_size p, seq_nr p, ack_nr p) /\
  forall q, packet_try_from p = Some (Ok q) ->
    packet_try_from (set_timestamp v p) = Some (Ok (set_timestamp v p)) /\ body_view (set_timestamp v p) = body_view q.
Proof. c04. Qed.
Lemma c04_tsd : forall p v, (20 <= length p)%nat ->
  patched 8 4 (u32 v) p (set_timestamp_difference v p) /\
  header_view (set_timestamp_difference v p) = (connection_id p, timestamp p, u32 v, wnd_size p, seq_nr p, ack_nr p) /\
  forall q, packet_try_from p = Some (Ok q) ->
    packet_try_from (set_timestamp_difference v p) = Some (Ok (set_timestamp_difference v p)) /\ body_view (set_timestamp_difference v p) = body_view q.
Proof. c04. Qed.
Lemma c04_wnd : forall p v, (20 <= length p)%nat ->
  patched 12 4 v p (set_wnd_size v p) /\
  header_view (set_wnd_size v p) = (connection_id p, timestamp p, timestamp_difference p, u32 v, seq_nr p, ack_nr p) /\
  forall q, packet_try_from p = Some (Ok q) ->
    packet_try_from (set_wnd_size v p) = Some (Ok (set_wnd_size v p)) /\ body_view (set_wnd_size v p) = body_view q.
Proof. c04. Qed.
Lemma c04_seq : forall p v, (20 <= length p)%nat ->
  patched 16 2 v p (set_seq_nr v p) /\
  header_view (set_seq_nr v p) = (connection_id p, timestamp p, timestamp_difference p, wnd_size p, u16 v, ack_nr p) /\
  forall q, packet_try_from p = Some (Ok q) ->
    packet_try_from (set_seq_nr v p) = Some (Ok (set_seq_nr v p)) /\ body_view (set_seq_nr v p) = body_view q.
Proof. c04. Qed.
Lemma c04_ack : forall p v, (20 <= length p)%nat ->
  patched 18 2 v p (set_ack_nr v p) /\
  header_view (set_ack_nr v p) = (connection_id p, timestamp p, timestamp_difference p, wnd_size p, seq_nr p, u16 v) /\
  forall q, packet_try_from p = Some (Ok q) ->
    packet_try_from (set_ack_nr v p) = Some (Ok (set_ack_nr v p)) /\ body_view (set_ack_nr v p) = body_view q.
Proof. c04. Qed.
Lemma c04_type : forall p t, (20 <= length p)%nat ->
  header_view (set_type t p) = header_view p /\ skipn 1 (set_type t p) = skipn 1 p /\ get_version (set_type t p) = get_version p /\
  get_type (set_type t p) = Some t /\
  forall q, packet_try_from p = Some (Ok q) ->
    packet_try_from (set_type t p) = Some (Ok (set_type t p)) /\
    body_view (set_type t p) = (Some t, get_version q, extensions q, payload q).
Proof.
  intros p t H. split; [|split; [|split; [|split]]].
  1,2,3,4: destruct (raw_surj p H) as (b0 & b1 & cid & ts & tsd & wnd & sq & ak & rest & -> & R); rewrite raw_set_type.
  - unfold header_view. rewrite !raw_cid, !raw_ts, !raw_tsd, !raw_wnd, !raw_seq, !raw_ack. reflexivity.
  - reflexivity.
  - unfold get_version. rewrite !raw_nth0. rewrite !land15 by apply b2z_range.
    pose proof (b2z_range b0). pose proof (type_code_range t). rewrite z2b_small by lia. lia.
  - unfold get_type. rewrite raw_nth0, shiftr4.
    pose proof (b2z_range b0). pose proof (type_code_range t). rewrite z2b_small by lia.
    replace ((16 * type_code t + b2z b0 mod 16) / 16) with (type_code t) by lia. now rewrite ptype_try_from_code.
  - intros q HP. apply parse_inv in HP as [Hq (h & exts & pl & _ & Hwf & Hbs)]. subst q. rewrite Hbs, set_type_wire.
    split; [now apply parse_wire|]. unfold body_view.
    rewrite !get_type_wire, !get_version_wire, !extensions_wire, !payload_wire by assumption. reflexivity.
Qed.

Lemma c06_ok p q bv : packet_try_from p = Some (Ok q) -> 4 <= zlen bv <= 252 -> zlen bv mod 4 = 0 ->
  exists p', set_sack bv q = Some p' /\ packet_try_from p' = Some (Ok p') /\
    header_view p' = header_view q /\ get_type p' = get_type q /\ get_version p' = get_version q /\ payload p' = payload q /\
    exists l, extensions q = Some l /\ extensions p' = Some (l ++ [mkExt ESack bv]) /\
    zlen p' = zlen q + 2 + zlen bv.
Proof.
  intros HP Hl Hm. apply parse_inv in HP as [-> (h & exts & pl & _ & Hwf & ->)].
  assert (Hwf' : Forall wf_ext (exts ++ [(x01, bv)])) by (apply wf_ext_snoc; auto; lia).
  eexists. split; [apply set_sack_wire; auto; lia|]. split; [now apply parse_wire|].
  unfold header_view. rewrite !cid_wire, !ts_wire, !tsd_wire, !wnd_wire, !seq_wire, !ack_wire.
  rewrite !get_type_wire, !get_version_wire, !payload_wire, !extensions_wire by assumption.
  repeat (split; [reflexivity|]). eexists; split; [reflexivity|]. split; [now rewrite map_app|].
  unfold zlen. rewrite !wire_length, wire_exts_snoc, app_length, wire_exts_to_0. cbn [length].
  rewrite (wire_exts_to_length x01 x00). unfold zlen. lia.
Qed.
Lemma c06_bad p bv : zlen bv < 4 \/ zlen bv mod 4 <> 0 -> set_sack bv p = None.
Proof.
  unfold zlen. intros H. unfold set_sack. destruct (length bv <? 4)%nat eqn:E; [reflexivity|].
  destruct (length bv mod 4 =? 0)%nat eqn:E2; [lia|reflexivity].
Qed.

Lemma c05 pl : packet_try_from (with_payload pl) = Some (Ok (with_payload pl)) /\
  get_type (with_payload pl) = Some PData /\ get_version (with_payload pl) = 1 /\
  extensions (with_payload pl) = Some [] /\ payload (with_payload pl) = Some pl /\
  header_view (with_payload pl) = (0, 0, 0, 0, 0, 0) /\ zlen (with_payload pl) = 20 + zlen pl.
Proof.
  rewrite with_payload_wire. unfold header_view.
  rewrite parse_wire, get_type_wire, get_version_wire, extensions_wire, payload_wire, !cid_wire, !ts_wire, !tsd_wire, !wnd_wire, !seq_wire, !ack_wire
    by constructor.
  repeat (split; [reflexivity|]). unfold zlen. rewrite wire_length. cbn [wire_exts length]. lia.
Qed.

Lemma c02 h exts pl : wf_hdr h -> Forall wf_ext exts ->
  packet_try_from (wire h exts pl) = Some (Ok (wire h exts pl)) /\
  get_type (wire h exts pl) = Some (h_type h) /\ get_version (wire h exts pl) = 1 /\
  header_view (wire h exts pl) = (h_cid h, h_ts h, h_tsd h, h_wnd h, h_seq h, h_ack h) /\
  extensions (wire h exts pl) = Some (map ext_view exts) /\ payload (wire h exts pl) = Some pl.
Proof.
  intros Hh Hwf. rewrite parse_wire, get_type_wire, get_version_wire, extensions_wire, payload_wire by assumption.
  unfold header_view. rewrite !cid_wire, !ts_wire, !tsd_wire, !wnd_wire, !seq_wire, !ack_wire.
  destruct Hh as (H1 & H2 & H3 & H4 & H5 & H6). rewrite !u16_small, !u32_small by assumption. tauto.
Qed.

Lemma c10 bs hd : header_try_from bs = Ok hd ->
  header_as_ref hd = firstn 20 bs /\ length (header_as_ref hd) = 20%nat.
Proof. intros H. split; [now apply header_roundtrip|reflexivity]. Qed.
Lemma c10_accepts bs : (exists hd, header_try_from bs = Ok hd) <->
  ((20 <= length bs)%nat /\ b2z (nth 0 bs x00) mod 16 = 1 /\ b2z (nth 0 bs x00) / 16 <= 4).
Proof.
  unfold header_try_from. change HEADER_SIZE with 20%nat. cbv zeta.
  pose proof (b2z_range (nth 0 bs x00)). rewrite land15, shiftr4 by lia.
  destruct (length bs <? 20)%nat eqn:E; [split; [intros [? [=]]|lia]|].
  destruct (negb _) eqn:E1; [split; [intros [? [=]]|lia]|].
  destruct (ptype_try_from _) as [t|] eqn:E2.
  - split; [|eauto]. intros _. apply ptype_try_from_ok in E2. pose proof (type_code_range t). lia.
  - split; [intros [? [=]]|]. apply ptype_try_from_err in E2. lia.
Qed.
