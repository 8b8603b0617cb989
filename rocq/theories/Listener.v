(** Model of the parts of src/socket.rs where a socket value is destroyed: the listener's failure paths. *)
From Verif Require Export Socket.
Local Open Scope Z_scope.

(** socket.rs:1229-1261 [accept] as in [Socket.accept], with the destructor (1169-1173) of the socket created at 1247
    on the ways out that do not hand it to the caller: [.and(Ok((socket, src)))] at 1255 drops it when sending the
    reply failed; the [else] branch (1257) and a panic unwinding out of [handle_packet] drop it too.  Dropping it while
    the future is suspended in [send_to] is not modelled. *)
Definition accept_drop (ev : rx) (local : result addr kind) (bound : result unit kind) : M addr :=
  match ev with
  | RxCancel => fail Pend
  | RxErr k => throw k
  | RxDgram data src =>
    parsed <- unwrap 1233 (packet_try_from (firstn BUF_SIZE data)) ;;
    match parsed with
    | Err e => throw (kind_of_parse_error e)
    | Ok p =>
      ty <- m_get_type p ;;
      if negb (ptype_eqb ty PSyn) then throw_se Other
      else
        try_ local ;;;
        try_ bound ;;;
        from_raw_parts src ;;;
        fun s =>
          match handle_packet recv p src s with
          | (Ret (Some reply), s1) =>
            (r <- udp_send src reply ;;
             match r with
             | Ok _ => ret src
             | Err k => drop_socket ;;; throw k
             end) s1
          | (Ret None, s1) => (drop_socket ;;; throw_se Other) s1
          | (Fail (Throw _), s1) => (drop_socket ;;; throw_se Other) s1
          | (Fail (Panic l), s1) => (drop_socket ;;; fail (Panic l)) s1
          | (Fail f, s1) => (Fail f, s1)
          end
    end
  end.
