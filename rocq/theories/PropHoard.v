(** More on C93. *)
From Verif Require Import HoardProofs PropBuffer PropTraffic Samples.
Require Import Lia.
Local Open Scope Z_scope.

(** What bounds the store of a reader, whatever arrives: 65536 numbers of at most 1500 bytes. *)
Theorem C93_bound_partial : forall s, reachable s ->
  Forall (fun p => exists d, payload p = Some d /\ (length d <= 1500)%nat) (s_incoming_buffer (sk s)) /\ stored s <= 98304000.
Proof.
  intros s HR. destruct (C15_reorder_buffer s HR) as (_ & _ & HV & HL). pose proof (reachable_small s HR) as HS. unfold small_buffer in HS.
  assert (HF : Forall (fun p => exists d, payload p = Some d /\ (length d <= 1500)%nat) (s_incoming_buffer (sk s))).
  { apply Forall_forall. intros p Hp. rewrite Forall_forall in HV, HS. destruct (HV p Hp) as [H1 _]. specialize (HS p Hp). destruct (parse_inv _ _ H1) as [_ (h & exts & pl & _ & HX & ->)].
    exists pl. split; [now apply payload_wire|]. rewrite wire_length in HS. lia. }
  split; [exact HF|]. unfold stored. assert (HB : fold_right (fun p n => match payload p with Some d => zlen d + n | None => n end) 0 (s_incoming_buffer (sk s)) <= 1500 * Z.of_nat (length (s_incoming_buffer (sk s)))); [|lia].
  clear HV HS HL. induction HF as [|p l (d & Hp & Hd) _ IH]; [cbn; lia|]. cbn [fold_right length]. rewrite Hp. unfold zlen in *. lia.
Qed.
Print Assumptions C93_bound_partial.
Example C93_bound_example : reachable hoard /\ 1048576 < stored hoard.
Proof. exact (conj (proj1 C93_refuted) (proj1 (proj2 C93_refuted))). Qed.
