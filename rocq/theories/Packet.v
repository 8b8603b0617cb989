(** Model of src/packet.rs and src/bit_iterator.rs.
    A [Packet] is a newtype over [Vec<u8>] (packet.rs:216), so a packet is a [list byte].
    [None] in an [option] result means the Rust code panics (index out of bounds, failed [assert!],
    [unwrap] of an error).  Loops run on explicit fuel; running out of fuel also yields the error value,
    and [PacketProofs] shows that the fuel given always suffices.
    Not modelled: [fmt::Debug]; the unaligned [unsafe] pointer casts are read as byte accesses. *)
From Verif Require Export Base.
Local Open Scope Z_scope.

Definition packet := list byte.

(** packet.rs:8 [HEADER_SIZE] *)
Definition HEADER_SIZE : nat := 20.

(** packet.rs:43-49 [PacketType] *)
Inductive ptype := PData | PFin | PState | PReset | PSyn.

(** packet.rs:78-82 [ExtensionType] *)
Inductive exttype := ENone | ESack | EUnknown (n : byte).

(** error.rs:53-58 [ParseError] *)
Inductive parse_error :=
| InvalidExtensionLength | InvalidPacketLength | InvalidPacketType (n : Z) | UnsupportedVersion.

Inductive result (A E : Type) := Ok (a : A) | Err (e : E).
Arguments Ok {A E} a. Arguments Err {A E} e.

(** packet.rs:51-63 [PacketType::try_from] *)
Definition ptype_try_from (n : Z) : result ptype parse_error :=
  match n with
  | 0 => Ok PData | 1 => Ok PFin | 2 => Ok PState | 3 => Ok PReset | 4 => Ok PSyn
  | _ => Err (InvalidPacketType n)
  end.

(** packet.rs:65-75 [u8::from(PacketType)] *)
Definition ptype_to_u8 (t : ptype) : Z :=
  match t with PData => 0 | PFin => 1 | PState => 2 | PReset => 3 | PSyn => 4 end.

(** packet.rs:42 derived [PartialEq] *)
Definition ptype_eqb (a b : ptype) : bool :=
  match a, b with
  | PData, PData | PFin, PFin | PState, PState | PReset, PReset | PSyn, PSyn => true
  | _, _ => false
  end.

(** packet.rs:84-92 [ExtensionType::from(u8)] *)
Definition exttype_from (b : byte) : exttype :=
  match b with x00 => ENone | x01 => ESack | _ => EUnknown b end.

(** packet.rs:94-102 [u8::from(ExtensionType)] *)
Definition exttype_to_u8 (t : exttype) : byte :=
  match t with ENone => x00 | ESack => x01 | EUnknown n => n end.

(** packet.rs:77 derived [PartialEq], compared with [ExtensionType::None] / [SelectiveAck] only *)
Definition is_none (t : exttype) : bool := match t with ENone => true | _ => false end.
Definition is_sack (t : exttype) : bool := match t with ESack => true | _ => false end.

(** A byte used as a [usize] length. *)
Definition b2n (b : byte) : nat := Z.to_nat (b2z b).

(** ** Header structure (packet.rs:124-214) *)

(** packet.rs:124-135 [PacketHeader]; integer fields hold the value of the native integer, whose
    memory bytes are in network order. *)
Record header := mkHeader {
  hd_type_ver : byte; hd_extension : byte;
  hd_connection_id : Z; hd_timestamp : Z; hd_timestamp_difference : Z;
  hd_wnd_size : Z; hd_seq_nr : Z; hd_ack_nr : Z
}.

(** packet.rs:10-14 [u8_to_unsigned_be!]: folds i from (end - start) down to 0 with
    acc | src[start+i] << (8*i). *)
Definition u8_to_unsigned (src : list byte) (start end_ : nat) : Z :=
  fold_left (fun acc i => Z.lor acc (Z.shiftl (b2z (nth (start + i) src x00)) (Z.of_nat (i * 8))))
            (rev (seq 0 (end_ - start + 1))) 0.

(** packet.rs:167-199 [PacketHeader::try_from] *)
Definition header_try_from (buf : list byte) : result header parse_error :=
  if (length buf <? HEADER_SIZE)%nat then Err InvalidPacketLength
  else let b0 := b2z (nth 0 buf x00) in
  if negb (Z.land b0 15 =? 1) then Err UnsupportedVersion
  else match ptype_try_from (Z.shiftr b0 4) with
  | Err e => Err e
  | Ok _ =>
    Ok {| hd_type_ver := nth 0 buf x00; hd_extension := nth 1 buf x00;
          hd_connection_id := u8_to_unsigned buf 2 3;
          hd_timestamp := u8_to_unsigned buf 4 7;
          hd_timestamp_difference := u8_to_unsigned buf 8 11;
          hd_wnd_size := u8_to_unsigned buf 12 15;
          hd_seq_nr := u8_to_unsigned buf 16 17;
          hd_ack_nr := u8_to_unsigned buf 18 19 |}
  end.

(** Memory bytes of an [n]-byte native integer on a little-endian host. *)
Fixpoint le_bytes (n : nat) (v : Z) : list byte :=
  match n with O => [] | S n' => z2b v :: le_bytes n' (v / 256) end.

(** packet.rs:160-165 [PacketHeader::as_ref]: the structure's memory ([repr(C)], no padding),
    on a little-endian host. *)
Definition header_as_ref (h : header) : list byte :=
  hd_type_ver h :: hd_extension h :: le_bytes 2 (hd_connection_id h) ++ le_bytes 4 (hd_timestamp h)
  ++ le_bytes 4 (hd_timestamp_difference h) ++ le_bytes 4 (hd_wnd_size h)
  ++ le_bytes 2 (hd_seq_nr h) ++ le_bytes 2 (hd_ack_nr h).

(** packet.rs:201-214 [PacketHeader::default] *)
Definition header_default : header :=
  {| hd_type_ver := z2b (Z.lor (Z.shiftl (ptype_to_u8 PData) 4) 1); hd_extension := x00;
     hd_connection_id := 0; hd_timestamp := 0; hd_timestamp_difference := 0;
     hd_wnd_size := 0; hd_seq_nr := 0; hd_ack_nr := 0 |}.

(** packet.rs:139-142 [PacketHeader::set_type] *)
Definition header_set_type (h : header) (t : ptype) : header :=
  let version := Z.land 15 (b2z (hd_type_ver h)) in
  mkHeader (z2b (Z.lor (Z.shiftl (ptype_to_u8 t) 4) version)) (hd_extension h) (hd_connection_id h)
    (hd_timestamp h) (hd_timestamp_difference h) (hd_wnd_size h) (hd_seq_nr h) (hd_ack_nr h).

(** ** Packet construction *)

(** packet.rs:226-228 [Packet::new] *)
Definition packet_new : packet := header_as_ref header_default.

(** packet.rs:231-241 [Packet::with_payload] *)
Definition with_payload (payload : list byte) : packet :=
  header_as_ref (header_set_type header_default PData) ++ payload.

(** ** Field access.  Every [Packet] has at least 20 bytes (its constructors guarantee it, proved in
    PacketProofs), so the casts to [PacketHeader] read bytes 0..19.  [from_be] of the native integer at an
    offset is the big-endian value of the bytes there. *)
Definition field (off n : nat) (p : packet) : Z := be_decode (firstn n (skipn off p)).

(** [to_be] followed by a store at the field's offset. *)
Definition set_field (off n : nat) (v : Z) (p : packet) : packet :=
  firstn off p ++ be_encode n v ++ skipn (off + n) p.

(** packet.rs:243-247, 139-142 [Packet::set_type] *)
Definition set_type (t : ptype) (p : packet) : packet :=
  let version := Z.land 15 (b2z (nth 0 p x00)) in
  list_set 0 (z2b (Z.lor (Z.shiftl (ptype_to_u8 t) 4) version)) p.

(** packet.rs:249-253, 145-147 [Packet::get_type]; [None]: the [unwrap] panics *)
Definition get_type (p : packet) : option ptype :=
  match ptype_try_from (Z.shiftr (b2z (nth 0 p x00)) 4) with Ok t => Some t | Err _ => None end.

(** packet.rs:255-258, 150-152 [Packet::get_version] *)
Definition get_version (p : packet) : Z := Z.land (b2z (nth 0 p x00)) 15.

(** packet.rs:260-263, 155-157 [Packet::get_extension_type] *)
Definition get_extension_type (p : packet) : exttype := exttype_from (nth 1 p x00).

(** packet.rs:307-310 (make_getter!), 287-290, 297-300; offsets from the [repr(C)] layout 124-135 *)
Definition connection_id (p : packet) : Z := field 2 2 p.
Definition timestamp (p : packet) : Z := field 4 4 p.
Definition timestamp_difference (p : packet) : Z := field 8 4 p.
Definition wnd_size (p : packet) : Z := field 12 4 p.
Definition seq_nr (p : packet) : Z := field 16 2 p.
Definition ack_nr (p : packet) : Z := field 18 2 p.

(** packet.rs:312-315 (make_setter!), 292-295 *)
Definition set_connection_id (v : Z) (p : packet) : packet := set_field 2 2 v p.
Definition set_timestamp (v : Z) (p : packet) : packet := set_field 4 4 v p.
Definition set_wnd_size (v : Z) (p : packet) : packet := set_field 12 4 v p.
Definition set_seq_nr (v : Z) (p : packet) : packet := set_field 16 2 v p.
Definition set_ack_nr (v : Z) (p : packet) : packet := set_field 18 2 v p.
(** packet.rs:302-305 and time.rs:60-64: the [Delay] (an i64) is cast [as u32] *)
Definition set_timestamp_difference (delay : Z) (p : packet) : packet := set_field 8 4 (u32 delay) p.

(** packet.rs:370-372 [Packet::len] *)
Definition packet_len (p : packet) : Z := zlen p.

(** ** Extension chain *)

(** packet.rs:269-285 [Packet::payload], the loop.  Returns the index where the payload starts. *)
Fixpoint payload_loop (fuel : nat) (p : packet) (index : nat) (ty : exttype) : option nat :=
  match fuel with
  | O => None
  | S f =>
    if (index <? length p)%nat && negb (is_none ty) then
      match nth_error p (index + 1), nth_error p index with
      | Some l, Some t => payload_loop f p (index + (b2n l + 2)) (exttype_from t)
      | _, _ => None
      end
    else Some index
  end.
Definition payload (p : packet) : option (list byte) :=
  match nth_error p 1 with
  | None => None
  | Some t =>
    match payload_loop (S (length p)) p HEADER_SIZE (exttype_from t) with
    | Some index => if (index <=? length p)%nat then Some (skipn index p) else None
    | None => None
    end
  end.

(** packet.rs:105-108 [Extension] *)
Record extension := mkExt { ext_ty : exttype; ext_data : list byte }.

(** packet.rs:428-453 [ExtensionIterator::next], iterated to the end: the list of extensions yielded *)
Fixpoint extensions_loop (fuel : nat) (p : packet) (index : nat) (next : exttype) : option (list extension) :=
  match fuel with
  | O => None
  | S f =>
    if is_none next then Some []
    else if (index <? length p)%nat then
      match nth_error p (index + 1), nth_error p index with
      | Some l, Some t =>
        let len := b2n l in
        let extension_start := (index + 2)%nat in
        let extension_end := (extension_start + len)%nat in
        if (extension_end <=? length p)%nat then
          match extensions_loop f p (index + (len + 2)) (exttype_from t) with
          | Some rest => Some (mkExt next (firstn len (skipn extension_start p)) :: rest)
          | None => None
          end
        else None
      | _, _ => None
      end
    else Some []
  end.
(** packet.rs:265-267, 418-426 [Packet::extensions] *)
Definition extensions (p : packet) : option (list extension) :=
  match nth_error p 1 with
  | None => None
  | Some t => extensions_loop (S (length p)) p HEADER_SIZE (exttype_from t)
  end.

(** packet.rs:468-487, the loop of [check_extensions] *)
Inductive check_res := CDone (ty : exttype) | CErr (e : parse_error) | COob | CFuel.
Fixpoint check_loop (fuel : nat) (data : list byte) (index : nat) (ty : exttype) : check_res :=
  match fuel with
  | O => CFuel
  | S f =>
    if (index <? length data)%nat && negb (is_none ty) then
      if (length data <? index + 2)%nat then CErr InvalidPacketLength
      else match nth_error data (index + 1), nth_error data index with
      | Some l, Some t =>
        let len := b2n l in
        let extension_start := (index + 2)%nat in
        let extension_end := (extension_start + len)%nat in
        if (len =? 0)%nat || negb (len mod 4 =? 0)%nat || (length data <? extension_end)%nat
        then CErr InvalidExtensionLength
        else check_loop f data (index + (len + 2)) (exttype_from t)
      | _, _ => COob
      end
    else CDone ty
  end.

(** packet.rs:456-494 [check_extensions]; [None] stands for an index panic (or lack of fuel) *)
Definition check_extensions (data : list byte) : option (result unit parse_error) :=
  if (length data <? HEADER_SIZE)%nat then Some (Err InvalidPacketLength)
  else
    let ty := exttype_from (nth 1 data x00) in
    if (length data =? HEADER_SIZE)%nat && negb (is_none ty) then Some (Err InvalidExtensionLength)
    else match check_loop (S (length data)) data HEADER_SIZE ty with
    | CDone ty' => if negb (is_none ty') then Some (Err InvalidPacketLength) else Some (Ok tt)
    | CErr e => Some (Err e)
    | COob | CFuel => None
    end.

(** packet.rs:375-388 [Packet::try_from].  [Result::and] evaluates its argument eagerly, so
    [check_extensions] runs even when the header is bad; the first error wins. *)
Definition packet_try_from (buf : list byte) : option (result packet parse_error) :=
  match check_extensions buf with
  | None => None
  | Some c =>
    match header_try_from buf with
    | Err e => Some (Err e)
    | Ok _ => match c with Err e => Some (Err e) | Ok _ => Some (Ok buf) end
    end
  end.

(** [Vec::insert]; panics when the index is past the end *)
Definition vec_insert {A} (i : nat) (x : A) (l : list A) : option (list A) :=
  if (i <=? length l)%nat then Some (firstn i l ++ x :: skipn i l) else None.

(** packet.rs:338-352, the loop of [set_sack]: returns the modified bytes and the insertion index *)
Fixpoint set_sack_loop (fuel : nat) (p : packet) (index : nat) (ty : exttype) : option (packet * nat) :=
  match fuel with
  | O => None
  | S f =>
    if (index <? length p)%nat && negb (is_none ty) then
      match nth_error p (index + 1), nth_error p index with
      | Some l, Some t =>
        let ty' := exttype_from t in
        let p' := if is_none ty' then list_set index (exttype_to_u8 ESack) p else p in
        set_sack_loop f p' (index + (b2n l + 2)) ty'
      | _, _ => None
      end
    else Some (p, index)
  end.

(** packet.rs:365-367: inserting the bitmap byte by byte *)
Fixpoint insert_all (i : nat) (bv : list byte) (p : packet) : option packet :=
  match bv with
  | [] => Some p
  | v :: bv' => match vec_insert i v p with Some p' => insert_all (S i) bv' p' | None => None end
  end.

(** packet.rs:321-368 [Packet::set_sack]; [bv.len() as u8] truncates *)
Definition set_sack (bv : list byte) (p : packet) : option packet :=
  if (length bv <? 4)%nat then None
  else if negb (length bv mod 4 =? 0)%nat then None
  else match nth_error p 1 with
  | None => None
  | Some t =>
    let ty := exttype_from t in
    match (if is_none ty then Some (list_set 1 (exttype_to_u8 ESack) p, HEADER_SIZE)
           else set_sack_loop (S (length p)) p HEADER_SIZE ty) with
    | None => None
    | Some (p1, index) =>
      match vec_insert index (exttype_to_u8 ENone) p1 with
      | None => None
      | Some p2 =>
        match vec_insert (index + 1) (z2b (zlen bv)) p2 with
        | None => None
        | Some p3 => insert_all (index + 2) bv p3
        end
      end
    end
  end.

(** ** bit_iterator.rs *)

(** bit_iterator.rs:6-10 [BitIterator] *)
Record bititer := mkBitIter { bi_object : list byte; bi_next : nat; bi_end : nat }.

(** bit_iterator.rs:15-21 [from_bytes] *)
Definition bits_from_bytes (obj : list byte) : bititer := mkBitIter obj 0 (length obj * 8).

(** bit_iterator.rs:24-26 and [u8::count_ones] *)
Definition byte_count_ones (b : byte) : Z :=
  fold_left (fun acc i => acc + (if Z.testbit (b2z b) (Z.of_nat i) then 1 else 0)) (seq 0 8) 0.
Definition count_ones (obj : list byte) : Z := fold_left (fun acc b => acc + byte_count_ones b) obj 0.

(** bit_iterator.rs:32-41 [next]; outer [None]: index panic; inner [None]: end of iteration.
    [object[i] >> bit & 1] parses as [(object[i] >> bit) & 1]. *)
Definition bit_next (it : bititer) : option (option bool * bititer) :=
  if negb (bi_next it =? bi_end it)%nat then
    let byte_index := (bi_next it / 8)%nat in
    let bit_index := (bi_next it mod 8)%nat in
    match nth_error (bi_object it) byte_index with
    | None => None
    | Some b =>
      let bit := Z.land (Z.shiftr (b2z b) (Z.of_nat bit_index)) 1 in
      Some (Some (bit =? 1), mkBitIter (bi_object it) (bi_next it + 1) (bi_end it))
    end
  else Some (None, it).

(** bit_iterator.rs:43-45 [size_hint] (lower and upper bound are the same), which
    [ExactSizeIterator::len] reports (bit_iterator.rs:48) *)
Definition bit_size_hint (it : bititer) : nat := bi_end it.

(** Collecting an iterator: at most [fuel] items. *)
Fixpoint bits_collect (fuel : nat) (it : bititer) : option (list bool) :=
  match fuel with
  | O => None
  | S f =>
    match bit_next it with
    | None => None
    | Some (None, _) => Some []
    | Some (Some b, it') => match bits_collect f it' with Some l => Some (b :: l) | None => None end
    end
  end.

(** packet.rs:119-121 [Extension::iter], collected *)
Definition bits_of (obj : list byte) : option (list bool) :=
  bits_collect (S (length obj * 8)) (bits_from_bytes obj).
