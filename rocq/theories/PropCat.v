(** C102: the example program utpcat, run as server and as client. *)
From Verif Require Import UtilProofs SpecCat CatProofs Samples.
Require Import Lia.
Local Open Scope Z_scope.

(** Any pieces read from the standard input, together up to 32768 packets; any worlds in which nothing happened yet, any clocks: the client writes without waiting for answers, the server's bound socket answers
    the SYN while it waits for data, prints exactly what was written and ends; both programs end with their connection closed. *)
Theorem C102_utpcat : forall ac asv l l' ds n c0 s0, untouched c0 -> untouched s0 -> (1380 <= n)%nat -> all_packets ds <= 32768 -> cat_runs ac asv l l' ds n c0 s0.
Proof. exact (cat_all false). Qed.
Print Assumptions C102_utpcat.

(** Any amount of data at all, if no two successive readings of the client's clock are 500 ms apart and no packet carries fewer than 13 bytes. *)
Theorem C102_any_length : forall ac asv l l' ds n c0 s0, untouched c0 -> untouched s0 -> (1380 <= n)%nat -> Forall whole_packets ds -> prompt_clock (wd c0) -> cat_runs ac asv l l' ds n c0 s0.
Proof. intros ac asv l l' ds n c0 s0 H1 H2 H3 H4 H5. exact (cat_all true ac asv l l' ds n c0 s0 H1 H2 H3 (conj H4 H5)). Qed.
Print Assumptions C102_any_length.

(** ** Example *)
Definition newly (s s' : st) : list packet := map snd (skipn (length (w_sent (wd s))) (w_sent (wd s'))).
Notation client_start := (mkSt blank (sample_world true 300 [])).
Notation server_start := (mkSt blank (sample_world true 60000 [])).
(** What the server printed, until it waits or ends. *)
Fixpoint printed (k : nat) (n : nat) (s : st) : list byte * option failure * st :=
  match k with
  | O => ([], None, s)
  | S k => match run_op (ORecvFrom n) s with
    | (Ret (VData [] _), s') => ([], None, s')
    | (Ret (VData d _), s') => let '(out, e, t) := printed k n s' in (d ++ out, e, t)
    | (Ret _, s') => ([], None, s')
    | (Fail e, s') => ([], Some e, s')
    end
  end.
(** Both programs again from the start, each time with what the other sent the time before. *)
Fixpoint rounds (k : nat) (ds : list (list byte)) : list packet * list packet :=
  match k with
  | O => ([], [])
  | S k => let (there, back) := rounds k ds in
      (newly client_start (snd (cat_client peer [] ds (arrive peer back client_start))),
       newly server_start (snd (printed 20 2000 (snd (cat_bind peer [] (arrive local there server_start))))))
  end.
Example C102_example : let ds := [repeat x41 5; repeat x42 3000; [x43]] in let (there, back) := rounds 16 ds in
  let c := cat_client peer [] ds (arrive peer back client_start) in let '(out, e, s) := printed 20 2000 (snd (cat_bind peer [] (arrive local there server_start))) in
  fst c = Ret tt /\ newly client_start (snd c) = there /\ map get_type there = [Some PSyn; Some PData; Some PData; Some PData; Some PData; Some PData; Some PFin] /\
  out = concat ds /\ e = None /\ newly server_start s = back /\ map get_type back = repeat (Some PState) 7 /\ s_state (sk (snd c)) = Closed /\ s_state (sk s) = Closed /\ all_packets ds = 5.
Proof. vm_compute. repeat split; reflexivity. Qed.
Example C102_start : untouched client_start /\ untouched server_start. Proof. split; (split; [reflexivity|split; [reflexivity|intros i; reflexivity]]). Qed.
(** A clock that advances 1 ms at each reading, and 800000 pieces of 1380 bytes, a gigabyte. *)
Example C102_gigabyte : Forall whole_packets (repeat (repeat x41 1380) (Z.to_nat 800000)) /\ prompt_clock (wd client_start).
Proof.
  split; [apply Forall_forall; intros d Hd; apply repeat_spec in Hd; subst d; left; vm_compute; reflexivity|].
  intros i. unfold ts_sub. rewrite !micros_spec. cbn [wd w_clock sample_world].
  rewrite !Z.abs_eq by lia. replace (1600000000000000 + 1000 * Z.of_nat (S i)) with (1600000000000000 + 1000 * Z.of_nat i + 1000) by lia.
  set (t := 1600000000000000 + 1000 * Z.of_nat i). clearbody t. pose proof (Z.mod_pos_bound t (2 ^ 32) ltac:(lia)). pose proof (Z.mod_pos_bound (t + 1000) (2 ^ 32) ltac:(lia)).
  pose proof (Z.div_mod t (2 ^ 32) ltac:(lia)). pose proof (Z.div_mod (t + 1000) (2 ^ 32) ltac:(lia)).
  assert (t / 2 ^ 32 <= (t + 1000) / 2 ^ 32) by (apply Z.div_le_mono; lia). lia.
Qed.
