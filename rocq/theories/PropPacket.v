(** Property theorems C01-C06, C08-C10: the packet codec. *)
From Verif Require Import PacketProofs3.
Local Open Scope Z_scope.

(** A sample datagram used by the examples: a State packet with two extensions and a payload. *)
Definition ex_hdr := mkHdr PState 258 16909060 5 1048576 65535 7.
Definition ex_exts : list wext := [(x01, [x0f; x00; x00; x80]); (x42, [x01; x02; x03; x04; x05; x06; x07; x08])].
Definition ex_wire := wire ex_hdr ex_exts [xde; xad].
Example ex_wf : wf_hdr ex_hdr /\ Forall wf_ext ex_exts.
Proof. split; [unfold wf_hdr; cbn; lia|]. repeat constructor; cbn; try discriminate. Qed.

Theorem C01_parser_accepts_exactly_the_grammar : forall bs p,
  packet_try_from bs = Some (Ok p) <-> p = bs /\ is_utp bs.
Proof.
  intros bs p. split; [intros H; apply parse_inv in H; exact H|].
  intros [-> (h & exts & pl & _ & Hwf & ->)]. now apply parse_wire.
Qed.
Print Assumptions C01_parser_accepts_exactly_the_grammar.
Example C01_example : packet_try_from ex_wire = Some (Ok ex_wire) /\ is_utp ex_wire /\ length ex_wire = 38%nat.
Proof.
  split; [vm_compute; reflexivity|]. split; [|reflexivity].
  exists ex_hdr, ex_exts, [xde; xad]. split; [apply ex_wf|]. split; [apply ex_wf|reflexivity].
Qed.

Theorem C02_accessors_invert_encoding : forall h exts pl, wf_hdr h -> Forall wf_ext exts ->
  packet_try_from (wire h exts pl) = Some (Ok (wire h exts pl)) /\
  get_type (wire h exts pl) = Some (h_type h) /\ get_version (wire h exts pl) = 1 /\
  header_view (wire h exts pl) = (h_cid h, h_ts h, h_tsd h, h_wnd h, h_seq h, h_ack h) /\
  extensions (wire h exts pl) = Some (map ext_view exts) /\ payload (wire h exts pl) = Some pl.
Proof. exact c02. Qed.
Print Assumptions C02_accessors_invert_encoding.
(** Totality for every accepted datagram, however it was produced. *)
Theorem C02_accepted_is_an_encoding : forall bs p, packet_try_from bs = Some (Ok p) ->
  exists h exts pl, wf_hdr h /\ Forall wf_ext exts /\ p = wire h exts pl /\
    get_type p = Some (h_type h) /\ extensions p = Some (map ext_view exts) /\ payload p = Some pl.
Proof.
  intros bs p H. apply parse_inv in H as [-> (h & exts & pl & Hh & Hwf & ->)].
  exists h, exts, pl. destruct (c02 h exts pl Hh Hwf) as (_ & ? & _ & _ & ? & ?). auto 10.
Qed.
Print Assumptions C02_accepted_is_an_encoding.
Example C02_example : header_view ex_wire = (258, 16909060, 5, 1048576, 65535, 7) /\ payload ex_wire = Some [xde; xad] /\
  extensions ex_wire = Some [mkExt ESack [x0f; x00; x00; x80]; mkExt (EUnknown x42) [x01; x02; x03; x04; x05; x06; x07; x08]].
Proof. vm_compute. auto. Qed.

Theorem C03_rejection_names_first_defect : forall bs e,
  packet_try_from bs = Some (Err e) <-> defect bs e.
Proof. exact parse_err_iff. Qed.
Print Assumptions C03_rejection_names_first_defect.
Theorem C03_parser_total : forall bs, exists r, packet_try_from bs = Some r.
Proof. exact parse_total. Qed.
Print Assumptions C03_parser_total.
(** Extension claims 8 bytes, but only 2 follow. *)
Definition ex_bad := wire_header ex_hdr x01 ++ [x00; x08; xde; xad].
Example C03_example : defect ex_bad InvalidExtensionLength /\ packet_try_from ex_bad = Some (Err InvalidExtensionLength) /\
  packet_try_from [x91] = Some (Err InvalidPacketLength) /\ packet_try_from (repeat x51 20) = Some (Err (InvalidPacketType 5)).
Proof. split; [apply parse_err_iff|]; vm_compute; auto. Qed.

Theorem C04_set_connection_id : forall p v, (20 <= length p)%nat ->
  patched 2 2 v p (set_connection_id v p) /\
  header_view (set_connection_id v p) = (u16 v, timestamp p, timestamp_difference p, wnd_size p, seq_nr p, ack_nr p) /\
  forall q, packet_try_from p = Some (Ok q) ->
    packet_try_from (set_connection_id v p) = Some (Ok (set_connection_id v p)) /\ body_view (set_connection_id v p) = body_view q.
Proof. exact c04_cid. Qed.
Print Assumptions C04_set_connection_id.
Theorem C04_set_timestamp : forall p v, (20 <= length p)%nat ->
  patched 4 4 v p (set_timestamp v p) /\
  header_view (set_timestamp v p) = (connection_id p, u32 v, timestamp_difference p, wnd_size p, seq_nr p, ack_nr p) /\
  forall q, packet_try_from p = Some (Ok q) ->
    packet_try_from (set_timestamp v p) = Some (Ok (set_timestamp v p)) /\ body_view (set_timestamp v p) = body_view q.
Proof. exact c04_ts. Qed.
Print Assumptions C04_set_timestamp.
Theorem C04_set_timestamp_difference : forall p v, (20 <= length p)%nat ->
  patched 8 4 (u32 v) p (set_timestamp_difference v p) /\
  header_view (set_timestamp_difference v p) = (connection_id p, timestamp p, u32 v, wnd_size p, seq_nr p, ack_nr p) /\
  forall q, packet_try_from p = Some (Ok q) ->
    packet_try_from (set_timestamp_difference v p) = Some (Ok (set_timestamp_difference v p)) /\ body_view (set_timestamp_difference v p) = body_view q.
Proof. exact c04_tsd. Qed.
Print Assumptions C04_set_timestamp_difference.
Theorem C04_set_wnd_size : forall p v, (20 <= length p)%nat ->
  patched 12 4 v p (set_wnd_size v p) /\
  header_view (set_wnd_size v p) = (connection_id p, timestamp p, timestamp_difference p, u32 v, seq_nr p, ack_nr p) /\
  forall q, packet_try_from p = Some (Ok q) ->
    packet_try_from (set_wnd_size v p) = Some (Ok (set_wnd_size v p)) /\ body_view (set_wnd_size v p) = body_view q.
Proof. exact c04_wnd. Qed.
Print Assumptions C04_set_wnd_size.
Theorem C04_set_seq_nr : forall p v, (20 <= length p)%nat ->
  patched 16 2 v p (set_seq_nr v p) /\
  header_view (set_seq_nr v p) = (connection_id p, timestamp p, timestamp_difference p, wnd_size p, u16 v, ack_nr p) /\
  forall q, packet_try_from p = Some (Ok q) ->
    packet_try_from (set_seq_nr v p) = Some (Ok (set_seq_nr v p)) /\ body_view (set_seq_nr v p) = body_view q.
Proof. exact c04_seq. Qed.
Print Assumptions C04_set_seq_nr.
Theorem C04_set_ack_nr : forall p v, (20 <= length p)%nat ->
  patched 18 2 v p (set_ack_nr v p) /\
  header_view (set_ack_nr v p) = (connection_id p, timestamp p, timestamp_difference p, wnd_size p, seq_nr p, u16 v) /\
  forall q, packet_try_from p = Some (Ok q) ->
    packet_try_from (set_ack_nr v p) = Some (Ok (set_ack_nr v p)) /\ body_view (set_ack_nr v p) = body_view q.
Proof. exact c04_ack. Qed.
Print Assumptions C04_set_ack_nr.
Theorem C04_set_type : forall p t, (20 <= length p)%nat ->
  header_view (set_type t p) = header_view p /\ skipn 1 (set_type t p) = skipn 1 p /\ get_version (set_type t p) = get_version p /\
  get_type (set_type t p) = Some t /\
  forall q, packet_try_from p = Some (Ok q) ->
    packet_try_from (set_type t p) = Some (Ok (set_type t p)) /\
    body_view (set_type t p) = (Some t, get_version q, extensions q, payload q).
Proof. exact c04_type. Qed.
Print Assumptions C04_set_type.
Example C04_example : (20 <= length ex_wire)%nat /\
  header_view (set_seq_nr 65537 (set_wnd_size 99 ex_wire)) = (258, 16909060, 5, 99, 1, 7) /\
  set_type PFin ex_wire = wire (mkHdr PFin 258 16909060 5 1048576 65535 7) ex_exts [xde; xad].
Proof. split; [cbn; lia|]. vm_compute. auto. Qed.

Theorem C05_data_packet_roundtrip : forall pl,
  packet_try_from (with_payload pl) = Some (Ok (with_payload pl)) /\
  get_type (with_payload pl) = Some PData /\ get_version (with_payload pl) = 1 /\
  extensions (with_payload pl) = Some [] /\ payload (with_payload pl) = Some pl /\
  header_view (with_payload pl) = (0, 0, 0, 0, 0, 0) /\ zlen (with_payload pl) = 20 + zlen pl.
Proof. exact c05. Qed.
Print Assumptions C05_data_packet_roundtrip.
Example C05_example : payload (with_payload [x01; x02]) = Some [x01; x02] /\ length (with_payload [x01; x02]) = 22%nat.
Proof. vm_compute. auto. Qed.

Theorem C06_set_sack_preserves_packet : forall p q bv,
  packet_try_from p = Some (Ok q) -> 4 <= zlen bv <= 252 -> zlen bv mod 4 = 0 ->
  exists p', set_sack bv q = Some p' /\ packet_try_from p' = Some (Ok p') /\
    header_view p' = header_view q /\ get_type p' = get_type q /\ get_version p' = get_version q /\ payload p' = payload q /\
    exists l, extensions q = Some l /\ extensions p' = Some (l ++ [mkExt ESack bv]) /\
    zlen p' = zlen q + 2 + zlen bv.
Proof. exact c06_ok. Qed.
Print Assumptions C06_set_sack_preserves_packet.
Theorem C06_set_sack_rejects_bad_lengths : forall p bv,
  zlen bv < 4 \/ zlen bv mod 4 <> 0 -> set_sack bv p = None.
Proof. exact c06_bad. Qed.
Print Assumptions C06_set_sack_rejects_bad_lengths.
Example C06_example : set_sack [x01; x00; x00; x00] ex_wire = Some (wire ex_hdr (ex_exts ++ [(x01, [x01; x00; x00; x00])]) [xde; xad]).
Proof. vm_compute. reflexivity. Qed.

Theorem C08_bits_lsb_first_and_complete : forall obj,
  bits_of obj = Some (bit_string obj) /\ length (bit_string obj) = (8 * length obj)%nat /\
  count_ones obj = count_true (bit_string obj).
Proof. intros obj. split; [apply bits_of_spec|]. split; [apply bit_string_length|apply count_ones_spec]. Qed.
Print Assumptions C08_bits_lsb_first_and_complete.
(** Bit [k] of the string is bit [k mod 8] of byte [k / 8]. *)
Theorem C08_bit_string_meaning : forall obj k b, nth_error obj (k / 8) = Some b ->
  nth_error (bit_string obj) k = Some (Z.testbit (b2z b) (Z.of_nat (k mod 8))).
Proof. exact bit_string_nth. Qed.
Print Assumptions C08_bit_string_meaning.
Example C08_example : bits_of [x05; x80] = Some [true;false;true;false;false;false;false;false; false;false;false;false;false;false;false;true]
  /\ count_ones [x05; x80] = 3.
Proof. vm_compute. auto. Qed.

(** C09 is false: after one bit was taken, the iterator still declares all bits. *)
Theorem C09_exact_size_refuted : exists it b it' rest,
  bit_next it = Some (Some b, it') /\ bits_collect 100 it' = Some rest /\ bit_size_hint it' <> length rest.
Proof. exists (bits_from_bytes [x01]). do 3 eexists. vm_compute. repeat split. discriminate. Qed.
Print Assumptions C09_exact_size_refuted.
(** What holds: the declared size is right before the first bit is taken. *)
Theorem C09_initial_size_partial : forall obj,
  exists l, bits_of obj = Some l /\ bit_size_hint (bits_from_bytes obj) = length l.
Proof.
  intros obj. exists (bit_string obj). split; [apply bits_of_spec|]. rewrite bit_string_length. cbn. lia.
Qed.
Print Assumptions C09_initial_size_partial.

Theorem C10_header_roundtrip : forall bs hd, header_try_from bs = Ok hd ->
  header_as_ref hd = firstn 20 bs /\ length (header_as_ref hd) = 20%nat.
Proof. exact c10. Qed.
Print Assumptions C10_header_roundtrip.
Theorem C10_header_acceptance : forall bs, (exists hd, header_try_from bs = Ok hd) <->
  ((20 <= length bs)%nat /\ b2z (nth 0 bs x00) mod 16 = 1 /\ b2z (nth 0 bs x00) / 16 <= 4).
Proof. exact c10_accepts. Qed.
Print Assumptions C10_header_acceptance.
Example C10_example : exists hd, header_try_from ex_wire = Ok hd /\ hd_connection_id hd = 513 /\ header_as_ref hd = firstn 20 ex_wire.
Proof. eexists. vm_compute. auto. Qed.
