(** Specification of the uTP wire format (BEP 29), independent of the parser in Packet.v.
    A datagram is a header, a chain of extensions and a payload. *)
From Verif Require Export Base Packet.
Local Open Scope Z_scope.

(** The header fields other than version (always 1) and first-extension type (fixed by the chain). *)
Record hdr := mkHdr {
  h_type : ptype; h_cid : Z; h_ts : Z; h_tsd : Z; h_wnd : Z; h_seq : Z; h_ack : Z }.

(** Wire code of a packet type. *)
Definition type_code (t : ptype) : Z :=
  match t with PData => 0 | PFin => 1 | PState => 2 | PReset => 3 | PSyn => 4 end.

(** An extension as a user sees it: its type byte (not 0) and its content. *)
Definition wext : Type := byte * list byte.

(** The type byte announced for the rest of a chain: 0 when there is none. *)
Definition first_type (exts : list wext) : byte :=
  match exts with [] => x00 | (t, _) :: _ => t end.

(** Each extension is written as: type of the next one, length, content. *)
Fixpoint wire_exts (exts : list wext) : list byte :=
  match exts with
  | [] => []
  | (_, d) :: rest => first_type rest :: z2b (zlen d) :: d ++ wire_exts rest
  end.

(** 20-byte header announcing first extension type [t0]. *)
Definition wire_header (h : hdr) (t0 : byte) : list byte :=
  z2b (16 * type_code (h_type h) + 1) :: t0 ::
  be_encode 2 (h_cid h) ++ be_encode 4 (h_ts h) ++ be_encode 4 (h_tsd h) ++ be_encode 4 (h_wnd h)
  ++ be_encode 2 (h_seq h) ++ be_encode 2 (h_ack h).

Definition wire (h : hdr) (exts : list wext) (pl : list byte) : list byte :=
  wire_header h (first_type exts) ++ wire_exts exts ++ pl.

(** Well-formedness: field widths; extension types non-zero; lengths non-zero multiples of 4 that fit
    the length byte. *)
Definition wf_hdr (h : hdr) : Prop :=
  0 <= h_cid h < 2^16 /\ 0 <= h_ts h < 2^32 /\ 0 <= h_tsd h < 2^32 /\ 0 <= h_wnd h < 2^32 /\
  0 <= h_seq h < 2^16 /\ 0 <= h_ack h < 2^16.
Definition wf_ext (e : wext) : Prop :=
  fst e <> x00 /\ 0 < zlen (snd e) < 256 /\ zlen (snd e) mod 4 = 0.

(** The language of uTP datagrams. *)
Definition is_utp (bs : list byte) : Prop :=
  exists h exts pl, wf_hdr h /\ Forall wf_ext exts /\ bs = wire h exts pl.

(** What the extension iterator should show for a wire extension. *)
Definition ext_view (e : wext) : extension := mkExt (exttype_from (fst e)) (snd e).

(** First defect of an extension chain announced by type [t] in the bytes [rest] that follow the header. *)
Inductive chain_defect : byte -> list byte -> parse_error -> Prop :=
| cd_missing t : t <> x00 -> chain_defect t [] InvalidPacketLength
| cd_short t x : t <> x00 -> chain_defect t [x] InvalidPacketLength
| cd_length t nt len rest : t <> x00 ->
    (b2z len = 0 \/ b2z len mod 4 <> 0 \/ zlen rest < b2z len) ->
    chain_defect t (nt :: len :: rest) InvalidExtensionLength
| cd_next t nt len d rest e : t <> x00 ->
    b2z len <> 0 -> b2z len mod 4 = 0 -> zlen d = b2z len ->
    chain_defect nt rest e -> chain_defect t (nt :: len :: d ++ rest) e.

(** First defect of a datagram, with the error that must be reported for it. *)
Inductive defect (bs : list byte) : parse_error -> Prop :=
| df_short : zlen bs < 20 -> defect bs InvalidPacketLength
| df_version b0 tl : bs = b0 :: tl -> 20 <= zlen bs -> b2z b0 mod 16 <> 1 -> defect bs UnsupportedVersion
| df_type b0 tl : bs = b0 :: tl -> 20 <= zlen bs -> b2z b0 mod 16 = 1 -> 4 < b2z b0 / 16 ->
    defect bs (InvalidPacketType (b2z b0 / 16))
| df_no_ext b0 b1 tl : bs = b0 :: b1 :: tl -> zlen bs = 20 -> b2z b0 mod 16 = 1 -> b2z b0 / 16 <= 4 ->
    b1 <> x00 -> defect bs InvalidExtensionLength
| df_chain b0 b1 tl e : bs = b0 :: b1 :: tl -> 20 < zlen bs -> b2z b0 mod 16 = 1 -> b2z b0 / 16 <= 4 ->
    chain_defect b1 (skipn 18 tl) e -> defect bs e.

(** The bits of a byte string, least significant bit of the first byte first. *)
Definition byte_bits (b : byte) : list bool := map (fun i => Z.testbit (b2z b) (Z.of_nat i)) (seq 0 8).
Definition bit_string (bs : list byte) : list bool := flat_map byte_bits bs.
Definition count_true (l : list bool) : Z := zlen (filter (fun b => b) l).

(** [p'] is [p] with the [n] bytes at offset [off] replaced by [v] in network (big-endian) order. *)
Definition patched (off n : nat) (v : Z) (p p' : list byte) : Prop :=
  length p' = length p /\
  (forall i, (i < off \/ off + n <= i)%nat -> nth_error p' i = nth_error p i) /\
  (forall k, (k < n)%nat -> nth_error p' (off + k) = Some (z2b (v / 256 ^ Z.of_nat (n - 1 - k)))).

(** The values of all fixed header fields, as the getters report them. *)
Definition header_view (p : list byte) : Z * Z * Z * Z * Z * Z :=
  (connection_id p, timestamp p, timestamp_difference p, wnd_size p, seq_nr p, ack_nr p).

(** Everything a reader sees of a packet apart from the numeric header fields. *)
Definition body_view (p : list byte) : option ptype * Z * option (list extension) * option (list byte) :=
  (get_type p, get_version p, extensions p, payload p).
