(** More proofs about the packet codec: construction, selective ack, rejection, bits, header struct. *)
From Verif Require Export PacketProofs.
Require Import ZifyBool ZifyNat ZifyN.
Local Open Scope Z_scope.
Ltac Zify.zify_post_hook ::= Z.div_mod_to_equations.

Lemma packet_new_wire : packet_new = wire (mkHdr PData 0 0 0 0 0 0) [] [].
Proof. reflexivity. Qed.
Lemma with_payload_wire pl : with_payload pl = wire (mkHdr PData 0 0 0 0 0 0) [] pl.
Proof. reflexivity. Qed.

(** setters on wire packets *)
Lemma set_cid_wire v h exts pl : set_connection_id v (wire h exts pl) =
  wire (mkHdr (h_type h) v (h_ts h) (h_tsd h) (h_wnd h) (h_seq h) (h_ack h)) exts pl.
Proof. rewrite !raw_wire. apply raw_set_cid. Qed.
Lemma set_ts_wire v h exts pl : set_timestamp v (wire h exts pl) =
  wire (mkHdr (h_type h) (h_cid h) v (h_tsd h) (h_wnd h) (h_seq h) (h_ack h)) exts pl.
Proof. rewrite !raw_wire. apply raw_set_ts. Qed.
Lemma set_tsd_wire v h exts pl : set_timestamp_difference v (wire h exts pl) =
  wire (mkHdr (h_type h) (h_cid h) (h_ts h) (u32 v) (h_wnd h) (h_seq h) (h_ack h)) exts pl.
Proof. rewrite !raw_wire. apply raw_set_tsd. Qed.
Lemma set_wnd_wire v h exts pl : set_wnd_size v (wire h exts pl) =
  wire (mkHdr (h_type h) (h_cid h) (h_ts h) (h_tsd h) v (h_seq h) (h_ack h)) exts pl.
Proof. rewrite !raw_wire. apply raw_set_wnd. Qed.
Lemma set_seq_wire v h exts pl : set_seq_nr v (wire h exts pl) =
  wire (mkHdr (h_type h) (h_cid h) (h_ts h) (h_tsd h) (h_wnd h) v (h_ack h)) exts pl.
Proof. rewrite !raw_wire. apply raw_set_seq. Qed.
Lemma set_ack_wire v h exts pl : set_ack_nr v (wire h exts pl) =
  wire (mkHdr (h_type h) (h_cid h) (h_ts h) (h_tsd h) (h_wnd h) (h_seq h) v) exts pl.
Proof. rewrite !raw_wire. apply raw_set_ack. Qed.
Lemma set_type_wire t h exts pl : set_type t (wire h exts pl) =
  wire (mkHdr t (h_cid h) (h_ts h) (h_tsd h) (h_wnd h) (h_seq h) (h_ack h)) exts pl.
Proof.
  rewrite !raw_wire, raw_set_type. cbn [h_type h_cid h_ts h_tsd h_wnd h_seq h_ack]. f_equal. f_equal.
  pose proof (type_code_range (h_type h)). rewrite z2b_small by lia. lia.
Qed.

(** ** set_sack *)
Fixpoint wire_exts_to (last : byte) (exts : list wext) : list byte :=
  match exts with
  | [] => []
  | (_, d) :: rest =>
    (match rest with [] => last | (t, _) :: _ => t end) :: z2b (zlen d) :: d ++ wire_exts_to last rest
  end.
Lemma wire_exts_to_0 exts : wire_exts exts = wire_exts_to x00 exts.
Proof. induction exts as [|[t d] [|[t' d'] rest] IH]; cbn [wire_exts wire_exts_to first_type] in *; congruence. Qed.
Lemma wire_exts_to_length a b exts : length (wire_exts_to a exts) = length (wire_exts_to b exts).
Proof.
  induction exts as [|[t d] rest IH]; [reflexivity|]. cbn [wire_exts_to length].
  rewrite !app_length, IH. reflexivity.
Qed.
Lemma wire_exts_snoc exts t bv :
  wire_exts (exts ++ [(t, bv)]) = wire_exts_to t exts ++ x00 :: z2b (zlen bv) :: bv.
Proof.
  induction exts as [|[t' d] rest IH].
  - cbn [app wire_exts wire_exts_to first_type]. now rewrite app_nil_r.
  - cbn [app wire_exts wire_exts_to]. rewrite IH.
    replace (first_type (rest ++ [(t, bv)])) with (match rest with [] => t | (t0, _) :: _ => t0 end)
      by (destruct rest as [|[? ?] ?]; reflexivity).
    rewrite <- app_assoc. reflexivity.
Qed.
Lemma first_type_snoc exts e : exts <> [] -> first_type (exts ++ [e]) = first_type exts.
Proof. destruct exts as [|[? ?] ?]; [congruence|reflexivity]. Qed.

Lemma set_sack_loop_wire fuel pre exts pl :
  Forall wf_ext exts -> exts <> [] -> (length (wire_exts exts) < fuel)%nat ->
  set_sack_loop fuel (pre ++ wire_exts exts ++ pl) (length pre) (exttype_from (first_type exts))
  = Some (pre ++ wire_exts_to x01 exts ++ pl, length pre + length (wire_exts exts))%nat.
Proof.
  revert pre exts; induction fuel as [|f IH]; intros pre exts Hwf Hne Hf; [lia|].
  destruct exts as [|[t d] rest]; [congruence|].
  inversion Hwf as [|? ? [Ht [Hl Hm]] Hwf']; subst. cbn [fst snd] in *.
  cbn [wire_exts wire_exts_to first_type] in *. set (L := z2b (zlen d)) in *.
  assert (HL : b2n L = length d) by now apply b2n_z2b_zlen.
  cbn [app set_sack_loop]. cbn [app length] in Hf. rewrite !app_length in Hf.
  rewrite is_none_nz by exact Ht. cbn [negb].
  replace (length pre <? length (pre ++ first_type rest :: L :: (d ++ wire_exts rest) ++ pl))%nat with true
    by (rewrite app_length; cbn [length]; lia).
  cbn [andb]. rewrite nth_error_app_at, nth_error_app_at1, HL. cbv zeta.
  destruct rest as [|[t2 d2] rest].
  - cbn [first_type exttype_from is_none wire_exts wire_exts_to]. rewrite list_set_app.
    destruct f as [|f]; [lia|]. cbn [set_sack_loop is_none negb].
    rewrite andb_false_r. f_equal. f_equal. cbn [length app]. rewrite app_nil_r. lia.
  - cbn [first_type]. inversion Hwf' as [|? ? [Ht2 _] _]; subst. cbn [fst] in Ht2.
    rewrite is_none_nz by exact Ht2.
    replace (length pre + (length d + 2))%nat with (length (pre ++ t2 :: L :: d))
      by (rewrite app_length; cbn [length]; lia).
    remember (@cons wext (t2, d2) rest) as R eqn:HRd.
    replace (pre ++ t2 :: L :: (d ++ wire_exts R) ++ pl)
      with ((pre ++ t2 :: L :: d) ++ wire_exts R ++ pl)
      by (rewrite <- !app_assoc; cbn [app]; rewrite <- ?app_assoc; reflexivity).
    assert (HR : R <> []) by (subst R; congruence).
    pose proof (IH (pre ++ t2 :: L :: d) R Hwf' HR ltac:(lia)) as IH'.
    replace (first_type R) with t2 in IH' by (subst R; reflexivity). rewrite IH'. f_equal. f_equal.
    + rewrite <- !app_assoc. cbn [app]. rewrite <- ?app_assoc. reflexivity.
    + rewrite app_length. cbn [length]. rewrite app_length. lia.
Qed.

Lemma vec_insert_at {A} i (x : A) a b : length a = i -> vec_insert i x (a ++ b) = Some (a ++ x :: b).
Proof.
  intros H. unfold vec_insert. rewrite (proj2 (Nat.leb_le _ _)) by (rewrite app_length; lia).
  now rewrite firstn_app_eq, skipn_app_eq.
Qed.
Lemma insert_all_at bv i a b : length a = i -> insert_all i bv (a ++ b) = Some (a ++ bv ++ b).
Proof.
  revert i a; induction bv as [|v bv IH]; intros i a H; cbn [insert_all]; [reflexivity|].
  rewrite vec_insert_at by exact H.
  replace (a ++ v :: b) with ((a ++ [v]) ++ b) by (rewrite <- app_assoc; reflexivity).
  rewrite IH by (rewrite app_length; cbn; lia). now rewrite <- app_assoc.
Qed.

(** The general effect, for any bitmap length that passes the assertions (the length byte is truncated). *)
Lemma set_sack_bytes h exts pl bv :
  Forall wf_ext exts -> (4 <= length bv)%nat -> (length bv mod 4 = 0)%nat ->
  set_sack bv (wire h exts pl) =
  Some (wire_header h (first_type (exts ++ [(x01, bv)])) ++ wire_exts (exts ++ [(x01, bv)]) ++ pl).
Proof.
  intros Hwf H4 Hm. unfold set_sack.
  rewrite (proj2 (Nat.ltb_ge _ _)) by lia. rewrite (proj2 (Nat.eqb_eq _ _)) by exact Hm. cbn [negb].
  rewrite nth_error1_wire. cbv zeta. rewrite wire_exts_snoc.
  assert (HX : exists p1, p1 = wire_header h (first_type (exts ++ [(x01, bv)])) ++ wire_exts_to x01 exts ++ pl /\
    (if is_none (exttype_from (first_type exts))
     then Some (list_set 1 (exttype_to_u8 ESack) (wire h exts pl), HEADER_SIZE)
     else set_sack_loop (S (length (wire h exts pl))) (wire h exts pl) HEADER_SIZE (exttype_from (first_type exts)))
    = Some (p1, (20 + length (wire_exts exts))%nat)).
  { destruct exts as [|e exts].
    - cbn [first_type exttype_from is_none app wire_exts wire_exts_to length].
      eexists; split; [reflexivity|]. reflexivity.
    - rewrite first_type_snoc by congruence.
      rewrite is_none_nz. 2:{ destruct e as [t d]. inversion Hwf as [|? ? [Ht _] _]; subst. exact Ht. }
      eexists; split; [reflexivity|].
      rewrite wire_length, wire_app. change HEADER_SIZE with 20%nat.
      rewrite <- (wire_header_length h (first_type (e :: exts))) at 2.
      rewrite set_sack_loop_wire by (assumption || congruence || lia).
      now rewrite wire_header_length. }
  destruct HX as (p1 & Hp1 & ->). subst p1.
  set (WH := wire_header h _). assert (HWH : length WH = 20%nat) by apply wire_header_length.
  set (WE := wire_exts_to x01 exts).
  assert (HWE : length (wire_exts exts) = length WE)
    by (rewrite wire_exts_to_0; apply wire_exts_to_length).
  rewrite HWE, app_assoc. rewrite vec_insert_at by (rewrite app_length; lia).
  cbn [exttype_to_u8].
  replace ((WH ++ WE) ++ x00 :: pl) with ((WH ++ WE ++ [x00]) ++ pl) by (rewrite <- !app_assoc; reflexivity).
  rewrite vec_insert_at by (rewrite !app_length; cbn [length]; lia).
  replace ((WH ++ WE ++ [x00]) ++ z2b (zlen bv) :: pl) with ((WH ++ WE ++ [x00; z2b (zlen bv)]) ++ pl)
    by (rewrite <- !app_assoc; reflexivity).
  rewrite insert_all_at by (rewrite !app_length; cbn [length]; lia).
  f_equal. rewrite <- !app_assoc. reflexivity.
Qed.

Lemma set_sack_wire h exts pl bv :
  Forall wf_ext exts -> 4 <= zlen bv < 256 -> zlen bv mod 4 = 0 ->
  set_sack bv (wire h exts pl) = Some (wire h (exts ++ [(x01, bv)]) pl).
Proof. unfold zlen. intros. apply set_sack_bytes; auto; lia. Qed.

Lemma wf_ext_snoc exts bv : Forall wf_ext exts -> 4 <= zlen bv < 256 -> zlen bv mod 4 = 0 ->
  Forall wf_ext (exts ++ [(x01, bv)]).
Proof.
  intros. apply Forall_app. split; auto. constructor; [|constructor].
  unfold wf_ext. cbn [fst snd]. split; [discriminate|]. lia.
Qed.

(** ** Rejection *)
Lemma check_loop_err_spec fuel pre rest t e :
  (length rest < fuel)%nat -> pre <> [] ->
  (check_loop fuel (pre ++ rest) (length pre) (exttype_from t) = CErr e ->
   chain_defect t rest e) /\
  (forall ty, check_loop fuel (pre ++ rest) (length pre) (exttype_from t) = CDone ty -> is_none ty = false ->
   chain_defect t rest InvalidPacketLength).
Proof.
  revert pre rest t; induction fuel as [|f IH]; intros pre rest t Hf Hpre; [lia|].
  cbn [check_loop]. cbv zeta.
  destruct (Byte.byte_eq_dec t x00) as [->|Ht].
  { cbn [exttype_from is_none negb]. rewrite andb_false_r.
    split; [discriminate|]. intros ty [= <-]. discriminate. }
  rewrite is_none_nz by exact Ht. cbn [negb]. rewrite andb_true_r, app_length.
  destruct (length pre <? length pre + length rest)%nat eqn:E1.
  - destruct (length pre + length rest <? length pre + 2)%nat eqn:E2.
    + split; [|discriminate]. intros [= <-]. destruct rest as [|x [|y rest]]; cbn [length] in *; try lia.
      now constructor.
    + destruct rest as [|nt [|L rest]]; cbn [length] in *; try lia.
      rewrite nth_error_app_at, nth_error_app_at1.
      pose proof (b2z_range L).
      destruct ((b2n L =? 0)%nat || negb (b2n L mod 4 =? 0)%nat || (length pre + S (S (length rest)) <? length pre + 2 + b2n L)%nat) eqn:E3.
      * split; [|discriminate]. intros [= <-]. apply cd_length; [assumption|]. unfold zlen, b2n in *. lia.
      * apply orb_false_elim in E3 as [E3 E5]. apply orb_false_elim in E3 as [E3 E4].
        assert (Hlen : length (firstn (b2n L) rest) = b2n L) by (rewrite firstn_length; lia).
        rewrite <- (firstn_skipn (b2n L) rest).
        rewrite <- (firstn_skipn (b2n L) rest) in Hf.
        set (d := firstn (b2n L) rest) in *. set (r := skipn (b2n L) rest) in *.
        replace (length pre + (b2n L + 2))%nat with (length (pre ++ nt :: L :: d))
          by (rewrite app_length; cbn [length]; lia).
        replace (pre ++ nt :: L :: d ++ r) with ((pre ++ nt :: L :: d) ++ r)
          by (rewrite <- !app_assoc; cbn [app]; rewrite <- ?app_assoc; reflexivity).
        assert (Hd : zlen d = b2z L) by (unfold zlen; rewrite Hlen; unfold b2n; lia).
        rewrite app_length in Hf.
        destruct (IH (pre ++ nt :: L :: d) r nt ltac:(lia) ltac:(destruct pre; discriminate)) as [IH1 IH2].
        split; intros; apply cd_next; try assumption; unfold b2n in *; try lia; eauto.
  - split; [discriminate|]. intros ty _ _. destruct rest; cbn [length] in *; [|lia]. now constructor.
Qed.

Lemma chain_defect_not_wf t rest e : chain_defect t rest e ->
  forall exts pl, Forall wf_ext exts -> t = first_type exts -> rest = wire_exts exts ++ pl -> False.
Proof.
  induction 1 as [t Ht|t x Ht|t nt len rest Ht HL|t nt len d rest e Ht H0 Hm Hd HC IH];
    intros exts pl Hwf He Hr; (destruct exts as [|[t' d'] exts]; [cbn in He; congruence|]);
    inversion Hwf as [|? ? [Ht' [Hl Hm']] Hwf']; subst; cbn [fst snd wire_exts app] in *; try discriminate.
  - injection Hr as -> -> ->. rewrite z2b_small in HL by lia.
    destruct HL as [|[|HL]]; try lia. rewrite <- app_assoc, zlen_app in HL. pose proof (zlen_nonneg (wire_exts exts ++ pl)). lia.
  - injection Hr as -> -> Hr. rewrite z2b_small in * by lia.
    rewrite <- app_assoc in Hr. assert (d = d').
    { apply (f_equal (firstn (length d))) in Hr. rewrite firstn_app_eq in Hr by reflexivity.
      rewrite firstn_app_eq in Hr by (unfold zlen in *; lia). exact Hr. }
    subst d'. apply app_inv_head in Hr. eapply IH; eauto.
Qed.

Lemma parse_err_defect bs e : packet_try_from bs = Some (Err e) -> defect bs e.
Proof.
  unfold packet_try_from, header_try_from, check_extensions. cbv zeta. change HEADER_SIZE with 20%nat.
  destruct (length bs <? 20)%nat eqn:E.
  { intros [= <-]. apply df_short. unfold zlen. lia. }
  destruct bs as [|b0 [|b1 tl]]; cbn [length] in E; try lia.
  cbn [nth]. pose proof (b2z_range b0). rewrite land15, shiftr4 by lia.
  assert (Hz : zlen (b0 :: b1 :: tl) = Z.of_nat (length tl) + 2) by (unfold zlen; cbn [length]; lia).
  destruct (negb (b2z b0 mod 16 =? 1)) eqn:EV.
  { intros H0. assert (e = UnsupportedVersion) as ->.
    { match type of H0 with match ?X with _ => _ end = _ => destruct X end; congruence. }
    eapply df_version; [reflexivity|lia|lia]. }
  destruct (ptype_try_from (b2z b0 / 16)) as [t|e'] eqn:ET.
  2:{ intros H0. apply ptype_try_from_err in ET as [-> Hn].
    assert (e = InvalidPacketType (b2z b0 / 16)) as ->.
    { match type of H0 with match ?X with _ => _ end = _ => destruct X end; congruence. }
    eapply df_type; [reflexivity|lia|lia|lia]. }
  apply ptype_try_from_ok in ET. pose proof (type_code_range t).
  destruct ((length (b0 :: b1 :: tl) =? 20)%nat && negb (is_none (exttype_from b1))) eqn:E20.
  { intros [= <-]. apply andb_prop in E20 as [E1 E2]. cbn [length] in E1. rewrite is_none_from in E2.
    eapply df_no_ext; [reflexivity|lia|lia|lia|intros ->; discriminate]. }
  set (bs := b0 :: b1 :: tl) in *.
  assert (H20 : length (firstn 20 bs) = 20%nat) by (rewrite firstn_length; subst bs; cbn [length] in *; lia).
  assert (Hs : skipn 20 bs = skipn 18 tl) by reflexivity.
  assert (HB : bs = firstn 20 bs ++ skipn 18 tl) by (rewrite <- Hs, firstn_skipn; reflexivity).
  destruct (check_loop_err_spec (S (length bs)) (firstn 20 bs) (skipn 18 tl) b1 e) as [HE _].
  { subst bs. cbn [length]. rewrite skipn_length. lia. } { intros Hnil. rewrite Hnil in H20. discriminate. }
  destruct (check_loop_err_spec (S (length bs)) (firstn 20 bs) (skipn 18 tl) b1 e) as [_ HD].
  { subst bs. cbn [length]. rewrite skipn_length. lia. } { intros Hnil. rewrite Hnil in H20. discriminate. }
  rewrite <- HB, H20 in HE, HD.
  assert (Hnz : forall e', chain_defect b1 (skipn 18 tl) e' -> length bs = 20%nat -> False).
  { intros e' HC HL. apply andb_false_iff in E20. destruct E20 as [E20|E20]; [subst bs; cbn [length] in *; lia|].
    assert (b1 <> x00) by (inversion HC; assumption). rewrite is_none_nz in E20 by assumption. discriminate. }
  destruct (check_loop (S (length bs)) bs 20 (exttype_from b1)) as [ty|e0| |] eqn:CL; try discriminate.
  - destruct (is_none ty) eqn:N; [discriminate|]. intros [= <-].
    specialize (HD ty eq_refl N).
    eapply df_chain; [reflexivity| |lia|lia|exact HD].
    assert (length bs <> 20%nat) by (intros HHH; eapply Hnz; eauto). subst bs. unfold zlen. cbn [length] in *. lia.
  - intros [= ->]. specialize (HE eq_refl).
    eapply df_chain; [reflexivity| |lia|lia|exact HE].
    assert (length bs <> 20%nat) by (intros HHH; eapply Hnz; eauto). subst bs. unfold zlen. cbn [length] in *. lia.
Qed.

Lemma chain_defect_det t rest e1 : chain_defect t rest e1 -> forall e2, chain_defect t rest e2 -> e1 = e2.
Proof.
  induction 1 as [t Ht|t x Ht|t nt len rest Ht HL|t nt len d rest e Ht H0 Hm Hd HC IH]; intros e2 H2;
    inversion H2; subst; try reflexivity.
  - exfalso. rewrite zlen_app in HL. pose proof (zlen_nonneg rest0). lia.
  - exfalso. rewrite zlen_app in *. pose proof (zlen_nonneg rest). lia.
  - apply IH. assert (d0 = d).
    { match goal with HH : _ ++ _ = _ ++ _ |- _ => apply (f_equal (firstn (length d))) in HH; rename HH into HF end.
      rewrite (firstn_app_eq (length d) d) in HF by reflexivity.
      rewrite firstn_app_eq in HF by (unfold zlen in *; lia). congruence. }
    subst d0. match goal with HH : _ ++ _ = _ ++ _ |- _ => apply app_inv_head in HH; subst end. assumption.
Qed.

Lemma defect_det bs e1 e2 : defect bs e1 -> defect bs e2 -> e1 = e2.
Proof.
  intros H1 H2. destruct H1, H2; subst; try reflexivity; try lia;
    repeat match goal with H : _ :: _ = _ :: _ |- _ => injection H; clear H; intros; subst end; try lia; try reflexivity.
  eapply chain_defect_det; eauto.
Qed.

Lemma defect_not_ok bs e : defect bs e -> forall p, packet_try_from bs = Some (Ok p) -> False.
Proof.
  intros HD p HP. apply parse_inv in HP as [_ (h & exts & pl & Hh & Hwf & ->)].
  pose proof (type_code_range (h_type h)).
  inversion HD as [Hs|b0 tl Hb Hz Hv|b0 tl Hb Hz Hv Ht|b0 b1 tl Hb Hz Hv Ht Hn|b0 b1 tl e' Hb Hz Hv Ht HC]; subst.
  - unfold zlen in Hs. rewrite wire_length in Hs. lia.
  - pose proof (nth0_wire h exts pl) as H0. rewrite Hb in H0. cbn [nth] in H0. lia.
  - pose proof (nth0_wire h exts pl) as H0. rewrite Hb in H0. cbn [nth] in H0. lia.
  - pose proof (nth1_wire h exts pl) as H1. rewrite Hb in H1. cbn [nth] in H1.
    unfold zlen in Hz. rewrite wire_length in Hz.
    destruct exts as [|x exts]; [cbn in H1; congruence|]. pose proof (wire_exts_length_pos x exts). lia.
  - pose proof (nth1_wire h exts pl) as H1. rewrite Hb in H1. cbn [nth] in H1.
    eapply chain_defect_not_wf; [exact HC|exact Hwf|exact H1|].
    transitivity (skipn 20 (wire h exts pl)); [rewrite Hb; reflexivity|]. rewrite raw_wire. apply raw_skip.
Qed.

Lemma parse_err_iff bs e : packet_try_from bs = Some (Err e) <-> defect bs e.
Proof.
  split; [apply parse_err_defect|]. intros HD.
  destruct (parse_total bs) as [[p|e'] HP].
  - exfalso. eapply defect_not_ok; eauto.
  - rewrite HP. f_equal. f_equal. eapply defect_det; [|exact HD]. now apply parse_err_defect.
Qed.

(** ** Bits *)
Lemma bit_string_length bs : length (bit_string bs) = (8 * length bs)%nat.
Proof. induction bs as [|b bs IH]; [reflexivity|]. cbn [bit_string flat_map]. rewrite app_length.
  change (flat_map byte_bits bs) with (bit_string bs). rewrite IH. cbn [byte_bits map seq length]. lia. Qed.
Lemma bit_string_nth bs k b : nth_error bs (k / 8) = Some b ->
  nth_error (bit_string bs) k = Some (Z.testbit (b2z b) (Z.of_nat (k mod 8))).
Proof.
  revert k; induction bs as [|b' bs IH]; intros k H; [destruct (k/8)%nat; discriminate|].
  cbn [bit_string flat_map]. change (flat_map byte_bits bs) with (bit_string bs).
  destruct (k <? 8)%nat eqn:E.
  - rewrite Nat.div_small in H by lia. injection H as ->. rewrite Nat.mod_small by lia.
    rewrite nth_error_app1 by (cbn; lia).
    unfold byte_bits. rewrite (map_nth_error _ k (seq 0 8) (d := k)); [reflexivity|].
    do 8 (destruct k as [|k]; [reflexivity|]). lia.
  - rewrite nth_error_app2 by (cbn; lia). change (length (byte_bits b')) with 8%nat.
    replace (k mod 8)%nat with ((k - 8) mod 8)%nat by lia.
    apply IH. replace (k / 8)%nat with (S ((k - 8) / 8))%nat in H by lia. exact H.
Qed.
Lemma land_shiftr_testbit z i : 0 <= z -> 0 <= i -> (Z.land (Z.shiftr z i) 1 =? 1) = Z.testbit z i.
Proof.
  intros Hz Hi. change 1 with (Z.ones 1) at 1. rewrite Z.land_ones, Z.shiftr_div_pow2 by lia.
  pose proof (Z.testbit_spec' z i Hi) as H. change (2^1) with 2.
  destruct (Z.testbit z i); cbn [Z.b2z] in H; rewrite <- H; reflexivity.
Qed.
Lemma skipn_nth_error {A} k (l : list A) x : nth_error l k = Some x -> skipn k l = x :: skipn (S k) l.
Proof. revert l; induction k as [|k IH]; intros [|y l] H; try discriminate; cbn in *; [congruence|]. now apply IH. Qed.

Lemma bits_collect_spec obj fuel k : (k <= 8 * length obj)%nat -> (8 * length obj - k < fuel)%nat ->
  bits_collect fuel (mkBitIter obj k (length obj * 8)) = Some (skipn k (bit_string obj)).
Proof.
  revert k; induction fuel as [|f IH]; intros k Hk Hf; [lia|].
  cbn [bits_collect]. unfold bit_next. cbn [bi_next bi_end bi_object].
  destruct (k =? length obj * 8)%nat eqn:E; cbn [negb].
  - rewrite skipn_all2 by (rewrite bit_string_length; lia). reflexivity.
  - destruct (nth_error obj (k / 8)) as [b|] eqn:N; [|apply nth_error_None in N; lia].
    cbv zeta. rewrite Nat.add_1_r, IH by lia.
    rewrite land_shiftr_testbit by (try apply b2z_range; lia).
    rewrite (skipn_nth_error k (bit_string obj) _ (bit_string_nth _ _ _ N)). reflexivity.
Qed.
Lemma bits_of_spec obj : bits_of obj = Some (bit_string obj).
Proof. unfold bits_of, bits_from_bytes. rewrite bits_collect_spec by lia. reflexivity. Qed.

Lemma count_true_app a b : count_true (a ++ b) = count_true a + count_true b.
Proof. unfold count_true. rewrite filter_app, zlen_app. reflexivity. Qed.
Lemma byte_count_ones_spec b : byte_count_ones b = count_true (byte_bits b).
Proof. destruct b; reflexivity. Qed.
Lemma count_ones_spec obj : count_ones obj = count_true (bit_string obj).
Proof.
  unfold count_ones.
  assert (H : forall acc, fold_left (fun acc b => acc + byte_count_ones b) obj acc = acc + count_true (bit_string obj)).
  { induction obj as [|b obj IH]; intros acc; cbn [fold_left bit_string flat_map]; [unfold count_true; cbn; lia|].
    rewrite IH, count_true_app, byte_count_ones_spec. change (flat_map byte_bits obj) with (bit_string obj). lia. }
  rewrite H. lia.
Qed.

(** ** Header structure *)
Lemma lor_shift a b n : 0 <= n -> 0 <= b < 256 ->
  Z.lor (Z.shiftl a (n + 8)) (Z.shiftl b n) = Z.shiftl (a * 256 + b) n.
Proof.
  intros Hn Hb. rewrite (Z.add_comm n 8), <- Z.shiftl_shiftl by lia.
  rewrite <- Z.shiftl_lor. f_equal.
  assert (Hd : Z.land (Z.shiftl a 8) b = 0).
  { apply Z.bits_inj'. intros m Hm. rewrite Z.land_spec, Z.bits_0.
    destruct (Z_lt_dec m 8).
    - rewrite Z.shiftl_spec_low by lia. reflexivity.
    - replace (Z.testbit b m) with false by (symmetry; rewrite Z.testbit_eqb by lia;
        rewrite Z.div_small; [reflexivity|]; split; [lia|]; apply Z.lt_le_trans with (2^8); [change (2^8) with 256; lia|apply Z.pow_le_mono_r; lia]).
      apply andb_false_r. }
  rewrite <- Z.lxor_lor by exact Hd. rewrite <- Z.add_nocarry_lxor by exact Hd.
  rewrite Z.shiftl_mul_pow2 by lia. reflexivity.
Qed.

Lemma le_bytes_1 v : le_bytes 1 v = [z2b v]. Proof. reflexivity. Qed.
Lemma z2b_add256 a b : z2b (a * 256 + b2z b) = b.
Proof.
  rewrite <- z2b_mod. pose proof (b2z_range b). replace ((a * 256 + b2z b) mod 256) with (b2z b) by lia. apply z2b_b2z.
Qed.
Lemma div_add256 a b : (a * 256 + b2z b) / 256 = a.
Proof. pose proof (b2z_range b). lia. Qed.

Lemma u8_to_unsigned_2 src start a b :
  nth start src x00 = a -> nth (start + 1) src x00 = b ->
  le_bytes 2 (u8_to_unsigned src start (start + 1)) = [a; b].
Proof.
  intros Ha Hb. unfold u8_to_unsigned. replace (start + 1 - start + 1)%nat with 2%nat by lia.
  cbn [seq rev app fold_left Nat.mul Nat.add]. rewrite Nat.add_0_r, Ha, Hb.
  change (Z.of_nat 8) with (0 + 8). change (Z.of_nat 0) with 0. rewrite Z.lor_0_l.
  rewrite lor_shift by (try apply b2z_range; lia). rewrite Z.shiftl_0_r.
  cbn [le_bytes]. rewrite z2b_add256, div_add256, z2b_b2z. reflexivity.
Qed.
Lemma u8_to_unsigned_4 src start a b c d :
  nth start src x00 = a -> nth (start + 1) src x00 = b -> nth (start + 2) src x00 = c -> nth (start + 3) src x00 = d ->
  le_bytes 4 (u8_to_unsigned src start (start + 3)) = [a; b; c; d].
Proof.
  intros Ha Hb Hc Hd. unfold u8_to_unsigned. replace (start + 3 - start + 1)%nat with 4%nat by lia.
  cbn [seq rev app fold_left Nat.mul Nat.add]. rewrite Nat.add_0_r, Ha, Hb, Hc, Hd.
  change (Z.of_nat 24) with (16 + 8). change (Z.of_nat 16) with 16. change (Z.of_nat 8) with 8. change (Z.of_nat 0) with 0.
  rewrite Z.lor_0_l.
  rewrite lor_shift by (try apply b2z_range; lia). change 16 with (8 + 8) at 1.
  rewrite lor_shift by (try apply b2z_range; lia). change 8 with (0 + 8) at 1.
  rewrite lor_shift by (try apply b2z_range; lia). rewrite Z.shiftl_0_r.
  cbn [le_bytes]. repeat (rewrite ?div_add256, ?z2b_add256, ?z2b_b2z). reflexivity.
Qed.

Lemma header_roundtrip bs hd : header_try_from bs = Ok hd -> header_as_ref hd = firstn 20 bs.
Proof.
  intros H. pose proof (header_try_from_ok_inv _ _ H) as [Hlen _].
  unfold header_try_from in H. cbv zeta in H.
  destruct (_ <? _)%nat; [discriminate|]. destruct (negb _); [discriminate|].
  destruct (ptype_try_from _); [|discriminate]. injection H as <-.
  do 20 (destruct bs as [|?b bs]; [cbn [length] in Hlen; lia|]).
  unfold header_as_ref. cbn [hd_type_ver hd_extension hd_connection_id hd_timestamp hd_timestamp_difference hd_wnd_size hd_seq_nr hd_ack_nr].
  match goal with |- context [u8_to_unsigned ?l _ _] => set (src := l) end.
  change (u8_to_unsigned src 2 3) with (u8_to_unsigned src 2 (2 + 1)).
  change (u8_to_unsigned src 4 7) with (u8_to_unsigned src 4 (4 + 3)).
  change (u8_to_unsigned src 8 11) with (u8_to_unsigned src 8 (8 + 3)).
  change (u8_to_unsigned src 12 15) with (u8_to_unsigned src 12 (12 + 3)).
  change (u8_to_unsigned src 16 17) with (u8_to_unsigned src 16 (16 + 1)).
  change (u8_to_unsigned src 18 19) with (u8_to_unsigned src 18 (18 + 1)).
  rewrite (u8_to_unsigned_2 src 2 _ _ eq_refl eq_refl), (u8_to_unsigned_4 src 4 _ _ _ _ eq_refl eq_refl eq_refl eq_refl),
    (u8_to_unsigned_4 src 8 _ _ _ _ eq_refl eq_refl eq_refl eq_refl), (u8_to_unsigned_4 src 12 _ _ _ _ eq_refl eq_refl eq_refl eq_refl),
    (u8_to_unsigned_2 src 16 _ _ eq_refl eq_refl), (u8_to_unsigned_2 src 18 _ _ eq_refl eq_refl).
  reflexivity.
Qed.
