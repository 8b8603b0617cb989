(** Lemmas for C73. *)
From Verif Require Export ConnProofs Listener.
Local Open Scope Z_scope.
Lemma accept_drop_rejects data src la bound s : (forall p, packet_try_from (firstn 1500 data) = Some (Ok p) -> get_type p <> Some PSyn) ->
  exists k, accept_drop (RxDgram data src) la bound s = (Fail (Throw k), s).
Proof.
  intros H. destruct (accept_rejects (RxDgram data src) la bound s) as [k E]; [intros d r p [= <- <-]; apply H|]. exists k. rewrite <- E.
  unfold accept_drop, accept, bind. destruct (unwrap 1233 _ s) as [[[p|e]|] s1] eqn:EU; try reflexivity.
  change BUF_SIZE with 1500%nat in EU. assert (EP : packet_try_from (firstn 1500 data) = Some (Ok p)) by (unfold unwrap, ret, fail in EU; destruct (packet_try_from _); [now injection EU as -> _|discriminate]).
  destruct (m_get_type p s1) as [[ty|] s2] eqn:ET; [|reflexivity]. specialize (H p EP).
  assert (ty <> PSyn) by (intros ->; apply H; unfold m_get_type, unwrap, ret, fail in ET; destruct (get_type p); [now injection ET as -> _|discriminate]).
  destruct ty; try reflexivity. congruence.
Qed.
Lemma accept_drop_success ev la bound s a s' : accept_drop ev la bound s = (Ret a, s') <-> accept ev la bound s = (Ret a, s').
Proof.
  unfold accept_drop, accept. destruct ev as [data src|k|]; [|reflexivity|reflexivity]. unfold bind. destruct (unwrap 1233 _ s) as [[[p|e]|] s1]; try reflexivity.
  destruct (m_get_type p s1) as [[ty|] s2]; [|reflexivity]. destruct (negb _); [reflexivity|]. destruct (try_ la s2) as [[x|] s3]; [|reflexivity]. destruct (try_ bound s3) as [[y|] s4]; [|reflexivity].
  destruct (from_raw_parts src s4) as [[z|] s5]; [|reflexivity].
  assert (HN : forall (m : M addr) t, (forall t', match fst (m t') with Ret _ => False | _ => True end) -> forall b t', match drop_socket t with (Ret _, t1) => m t1 | (Fail f, t1) => (Fail f, t1) end <> (Ret b, t')).
  { intros m t Hm b t'. destruct (drop_socket t) as [[u|] t1]; [|discriminate]. specialize (Hm t1). destruct (m t1) as [[|] ?]; cbn in Hm; [contradiction|discriminate]. }
  destruct (handle_packet recv p src s5) as [[[reply|]|[k|l| |]] s6]; try reflexivity.
  - destruct (udp_send src reply s6) as [[[[]|k]|] s7]; try reflexivity. cbn [try_]. split; [|discriminate]. intros H. exfalso. revert H. apply (HN (throw k)). intros t'. exact I.
  - split; [|discriminate]. intros H. exfalso. revert H. apply (HN (throw_se Other)). intros t'. exact I.
  - split; [|discriminate]. intros H. exfalso. revert H. apply (HN (throw_se Other)). intros t'. exact I.
  - split; [|discriminate]. intros H. exfalso. revert H. apply (HN (fail (Panic l))). intros t'. exact I.
Qed.
