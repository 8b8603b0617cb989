(** Model of src/util.rs, src/time.rs and src/error.rs. *)
From Verif Require Export Packet.
Local Open Scope Z_scope.

(** ** error.rs *)

(** [std::io::ErrorKind], as far as the library distinguishes kinds; [KMisc n] is any other kind. *)
Inductive kind :=
| KNotConnected | KConnectionReset | KTimedOut | KInvalidInput | KConnectionRefused | KWouldBlock | KOther
| KMisc (n : Z).

(** error.rs:6-14 [SocketError]; the message of [Other] is not modelled *)
Inductive socket_error :=
| ConnectionClosed | ConnectionReset | ConnectionTimedOut | InvalidAddress | InvalidReply | NotConnected | Other.

(** error.rs:37-50 [io::Error::from(SocketError)]: the kind of the I/O error *)
Definition kind_of_socket_error (e : socket_error) : kind :=
  match e with
  | ConnectionClosed | NotConnected => KNotConnected
  | ConnectionReset => KConnectionReset
  | ConnectionTimedOut => KTimedOut
  | InvalidAddress => KInvalidInput
  | InvalidReply => KConnectionRefused
  | Other => KOther
  end.

(** error.rs:78-82 [io::Error::from(ParseError)] *)
Definition kind_of_parse_error (e : parse_error) : kind := KOther.

(** ** time.rs *)

(** time.rs:7-14 [now_microseconds] for a system clock showing [t] microseconds after the epoch
    (before it, if negative: line 10 takes the absolute distance). *)
Definition micros_of_clock (t : Z) : Z :=
  let d := Z.abs t in
  u32 (u32 (u64 (u64 (d / 1000000) * 1000000)) + d mod 1000000).

(** time.rs:22-24: [Timestamp - Timestamp] as an i64 [Delay]; both operands are below 2^32 so the i64
    subtraction cannot overflow *)
Definition ts_sub (a b : Z) : Z := a - b.

(** ** util.rs *)

(** util.rs:19-25 [abs_diff] at type [Timestamp -> Delay] *)
Definition abs_diff (a b : Z) : Z := if b <? a then ts_sub a b else ts_sub b a.

(** util.rs:32-40 [generate_sequential_identifiers] with random draw [id] *)
Definition sequential_identifiers (id : Z) : Z * Z :=
  if id + 1 <? 2 ^ 16 then (id, id + 1) else (id - 1, id).
