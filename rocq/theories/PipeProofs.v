(** Streams over the two ends of a connection (C101). *)
From Verif Require Export SpecPipe AdapterProofs BulkProofs.
Require Import Lia ZifyBool ZifyNat ZifyN.
Local Open Scope Z_scope.
Ltac Zify.zify_post_hook ::= Z.div_mod_to_equations.

(** A slot while its operation is wanted: empty, waiting for the lock, or suspended with it. *)
Definition wants (sl : slot) (o : op) (b : list byte) (t : stream) : Prop :=
  t_slot t sl = None /\ t_lock t = None \/ t_slot t sl = Some (Waiting o b) /\ t_lock t = None \/ (exists m, t_slot t sl = Some (Running o b m)) /\ t_lock t = Some sl.
Definition others (sl : slot) (t t' : stream) : Prop := forall x, x <> sl -> t_slot t' x = t_slot t x.
Inductive polled (sl : slot) (o : op) (b : list byte) (t : stream) : poll (value * list byte) -> stream -> Prop :=
| P_wait t' : wants sl o b t' -> t_st t' = t_st t -> others sl t t' -> polled sl o b t Pending t'
| P_ret v s t' : run_op o (t_st t) = (Ret v, s) -> t_st t' = s -> t_lock t' = None -> others sl t t' -> polled sl o b t (Ready (Ok (v, b))) t'
| P_err e s t' q : run_op o (t_st t) = (Fail e, s) -> e <> Pend -> e <> NoFuel -> polled sl o b t q t'.
Lemma others_set sl v t : others sl t (set_slot sl v t). Proof. intros x H. cbn. destruct x, sl; cbn; congruence. Qed.
Lemma others_put sl v s k b d t t1 : others sl t t1 -> others sl t (set_slot sl v (mkStream s k (t_slot t1) b d)). Proof. intros HO x H. rewrite <- (HO x H). cbn. destruct x, sl; cbn; congruence. Qed.
Lemma others_trans sl a b c : others sl a b -> others sl b c -> others sl a c. Proof. intros H1 H2 x H. rewrite H2 by assumption. auto. Qed.
Lemma advance_cases sl o b t1 t q t' : t_st t1 = t_st t -> others sl t t1 -> advance sl o b t1 = (q, t') ->
  polled sl o b t q t' /\ (fst (run_op o (t_st t)) <> Fail Pend -> fst (run_op o (t_st t)) <> Fail NoFuel -> q <> Pending).
Proof.
  intros E1 HO HA. unfold advance in HA. rewrite E1 in HA. destruct (run_op o (t_st t)) as [[v|e] s] eqn:ER.
  - injection HA as <- <-. split; [|discriminate]. eapply P_ret; [exact ER|reflexivity|reflexivity|]. now apply others_put.
  - cbn [fst]. destruct e; injection HA as <- <-; (split; [|first [discriminate|congruence]]); try (eapply P_err; [exact ER|discriminate|discriminate]);
      (apply P_wait; [right; right; split; [eexists; apply set_get|reflexivity]|reflexivity|now apply others_put]).
Qed.
Lemma poll_cases sl o b g t q t' : wants sl o b t -> poll_future sl g (ensure sl o b t) = (q, t') -> polled sl o b t q t' /\
  (g = true -> fst (run_op o (t_st t)) <> Fail Pend -> fst (run_op o (t_st t)) <> Fail NoFuel -> q <> Pending).
Proof.
  intros HW H. unfold ensure in H. destruct HW as [[HS HL]|[[HS HL]|[[m HS] HL]]]; rewrite HS in H; unfold poll_future in H.
  - rewrite set_get in H. cbn [set_slot t_lock] in H. rewrite HL in H. destruct g.
    + eapply advance_cases in H; [destruct H as [HA HB]; split; [exact HA|intros _; exact HB]|reflexivity|exact (others_set sl (Some (Waiting o b)) t)].
    + injection H as <- <-. split; [|discriminate]. apply P_wait; [|reflexivity|apply others_set]. right. left. split; [apply set_get|exact HL].
  - rewrite HS, HL in H. destruct g.
    + eapply advance_cases in H; [destruct H as [HA HB]; split; [exact HA|intros _; exact HB]|reflexivity|exact (fun x _ => eq_refl)].
    + injection H as <- <-. split; [|discriminate]. apply P_wait; [|reflexivity|intros x _; reflexivity]. right. left. auto.
  - rewrite HS in H. eapply advance_cases in H; [destruct H as [HA HB]; split; [exact HA|intros _; exact HB]|reflexivity|exact (fun x _ => eq_refl)].
Qed.

(** ** The reader *)
Lemma coming_arrive a ps s : Stream.arrive (coming a ps) s = arrive a ps s. Proof. reflexivity. Qed.
Lemma more_read a n p w y c y1 : run_op (ORecvFrom n) (arrive a [p] y) = (Ret (VData c a), y1) -> run_op (ORecvFrom n) (arrive a (p :: w) y) = (Ret (VData c a), arrive a w y1).
Proof. intros H. change (p :: w) with ([p] ++ w). rewrite arrive_app. exact (proj1 (leads_run_op (map (fun r => RxDgram r a) w) (ORecvFrom n)) _ _ _ H I). Qed.
Lemma read_fits n s c a s' : run_op (ORecvFrom n) s = (Ret (VData c a), s') -> (length c <= n)%nat.
Proof.
  intros H. cbn [run_op] in H. unfold bind in H. destruct (recv_from n s) as [[[d x]|] s1] eqn:E; [|discriminate]. cbn in H. injection H as <- <- <-. exact (recv_from_bound _ _ _ _ E).
Qed.
Lemma poll_read_cases buf g t r t' : wants SlRead (ORecvFrom (length buf)) buf t -> poll_read buf g t = (r, t') ->
  (r = Pending /\ wants SlRead (ORecvFrom (length buf)) buf t' /\ t_st t' = t_st t) \/
  (exists c a, run_op (ORecvFrom (length buf)) (t_st t) = (Ret (VData c a), t_st t') /\ r = got_piece buf c /\ wants SlRead (ORecvFrom (length buf)) buf t') \/
  (exists e s, run_op (ORecvFrom (length buf)) (t_st t) = (Fail e, s) /\ e <> Pend /\ e <> NoFuel).
Proof.
  intros HW H. unfold poll_read in H. destruct (poll_future _ _ _) as [q t1] eqn:EP. destruct (poll_cases _ _ _ _ _ _ _ HW EP) as [HP _]. destruct HP as [t1 W1 S1 _|v s t1 R1 S1 L1 _|e s t1 q R1 N1 N2].
  - injection H as <- <-. auto.
  - right. left. assert (HV : exists c a, v = VData c a).
    { cbn [run_op] in R1. unfold bind in R1. destruct (recv_from _ _) as [[[d x]|] s1]; [|discriminate]. cbn in R1. injection R1 as <- _. eauto. }
    destruct HV as (c & a & ->). pose proof (read_fits _ _ _ _ _ R1) as HF.
    assert (HE : Nat.eqb (length buf) (length (c ++ skipn (length c) buf)) = true) by (rewrite app_length, skipn_length; lia). rewrite HE in H. injection H as <- <-. exists c, a.
    cbn [t_st set_slot]. rewrite S1. split; [exact R1|]. split; [reflexivity|]. left. split; [apply set_get|exact L1].
  - right. right. eauto.
Qed.
Lemma poll_read_granted buf t : wants SlRead (ORecvFrom (length buf)) buf t -> (exists c a s, run_op (ORecvFrom (length buf)) (t_st t) = (Ret (VData c a), s)) -> fst (poll_read buf true t) <> Pending.
Proof.
  intros HW (c & a & s & HR). unfold poll_read. destruct (poll_future _ _ _) as [q t1] eqn:EP. destruct (poll_cases _ _ _ _ _ _ _ HW EP) as [_ HG].
  specialize (HG eq_refl). rewrite HR in HG. specialize (HG ltac:(discriminate) ltac:(discriminate)). destruct q as [[[v vec]|k]| |cr]; try congruence; try discriminate.
  destruct v; try discriminate. destruct (Nat.eqb _ _); discriminate.
Qed.
Lemma coming_split a rest : forall j evs more, evs ++ more = coming a (firstn j rest) -> (j <= length rest)%nat -> exists i, (i <= j)%nat /\ evs = coming a (firstn i rest) /\ more = coming a (firstn (j - i) (skipn i rest)).
Proof.
  induction rest as [|p rest IH]; intros j evs more H Hj; cbn [length] in Hj.
  - assert (j = 0)%nat by lia. subst j. cbn in H. apply app_eq_nil in H. destruct H as [-> ->]. exists 0%nat. auto.
  - destruct j as [|j]; [cbn in H; apply app_eq_nil in H; destruct H as [-> ->]; exists 0%nat; auto|]. destruct evs as [|e evs].
    + exists 0%nat. cbn [app] in H. cbn [firstn skipn coming map]. rewrite Nat.sub_0_r. split; [lia|]. auto.
    + cbn in H. injection H as -> H. destruct (IH j evs more H ltac:(lia)) as (i & Hi & -> & ->). exists (S i). split; [lia|]. auto.
Qed.
Lemma read_each_sent a n ps cs qs y y' : read_each a n ps cs qs y y' -> sent_to a qs y y' /\ length cs = length ps /\ length qs = length ps.
Proof.
  induction 1 as [y|p ps c cs q qs y y1 y2 _ _ HS HR [IH (L1 & L2)]]; [split; [unfold sent_to; cbn; now rewrite app_nil_r|auto]|].
  split; [|cbn [length]; lia]. unfold sent_to in *. rewrite IH, HS, <- app_assoc. reflexivity.
Qed.
Lemma reader_runs a buf l : forall t ps cs qs y y' w rest j rs t', read_each a (length buf) ps cs qs y y' -> fst (run_op (ORecvFrom (length buf)) y') = Fail Pend -> ps = w ++ rest -> t_st t = arrive a w y ->
  wants SlRead (ORecvFrom (length buf)) buf t -> reading buf l -> (j <= length rest)%nat -> arriving l = coming a (firstn j rest) -> acts l t = (rs, t') ->
  exists k, (k <= length w + j)%nat /\ concluded rs = map (got_piece buf) (firstn k cs) /\ ((k < length w + j)%nat -> fst (poll_read buf true t') = got_piece buf (nth k cs [])) /\ (k = length ps -> t_st t' = y').
Proof.
  assert (K : forall t ps cs qs y y' w rest r t1 g, read_each a (length buf) ps cs qs y y' -> fst (run_op (ORecvFrom (length buf)) y') = Fail Pend -> ps = w ++ rest -> t_st t = arrive a w y ->
    wants SlRead (ORecvFrom (length buf)) buf t -> poll_read buf g t = (r, t1) ->
    (r = Pending /\ wants SlRead (ORecvFrom (length buf)) buf t1 /\ t_st t1 = t_st t) \/
    (exists p w' c cs' q qs' y1, w = p :: w' /\ cs = c :: cs' /\ qs = q :: qs' /\ read_each a (length buf) (w' ++ rest) cs' qs' y1 y' /\ t_st t1 = arrive a w' y1 /\ r = got_piece buf c /\ wants SlRead (ORecvFrom (length buf)) buf t1)).
  { intros t ps cs qs y y' w rest r t1 g HR HP EP ET HW HA. destruct w as [|p w'].
    - rewrite arrive_nil in ET. assert (HY : fst (run_op (ORecvFrom (length buf)) y) = Fail Pend) by (inversion HR as [|? ? ? ? ? ? ? ? ? HZ]; subst; [assumption|rewrite HZ; reflexivity]).
      destruct (poll_read_cases _ _ _ _ _ HW HA) as [H|[(c & a0 & H & _)|(e & s & H & N & _)]]; [left; exact H| |]; rewrite ET in H; rewrite H in HY; cbn in HY; congruence.
    - cbn [app] in EP. subst ps. inversion HR as [|? ? c cs' q qs' ? y1 ? HY HO HS HR']; subst. pose proof (more_read _ _ _ w' _ _ _ HO) as HM.
      destruct (poll_read_cases _ _ _ _ _ HW HA) as [H|[(c0 & a0 & H & Hr & W1)|(e & s & H & N & _)]]; [left; exact H| |]; rewrite ET, HM in H; [|discriminate].
      injection H as <- <- E1. right. exists p, w', c, cs', q, qs', y1. auto 10. }
  induction l as [|act0 l IH]; intros t ps cs qs y y' w rest j rs t' HR HP EP ET HW HL Hj HA HT; cbn [acts] in HT.
  - injection HT as <- <-. exists 0%nat. cbn in HA. assert (j = 0)%nat by (destruct j; [reflexivity|]; destruct rest; [cbn in Hj; lia|discriminate]). subst j.
    split; [lia|]. split; [reflexivity|]. split.
    + intros Hk. destruct (poll_read buf true t) as [r t1] eqn:ER. destruct (K _ _ _ _ _ _ _ _ _ _ _ HR HP EP ET HW ER) as [(-> & _)|(p & w' & c & cs' & q & qs' & y1 & -> & -> & _ & _ & _ & -> & _)]; [|reflexivity].
      exfalso. apply (poll_read_granted buf t HW); [|rewrite ER; reflexivity]. destruct w as [|p w]; [cbn in Hk; lia|]. cbn [app] in EP. subst ps. inversion HR as [|? ? c ? ? ? ? y1 ? ? HO]; subst. rewrite ET. rewrite (more_read _ _ _ w _ _ _ HO). eauto.
    + intros Hk. symmetry in Hk. apply length_zero_iff_nil in Hk. subst ps. apply app_eq_nil in Hk. destruct Hk as [-> ->]. cbn [app] in HR. inversion HR; subst. rewrite ET. apply arrive_nil.
  - destruct (act act0 t) as [r t1] eqn:EA. destruct (acts l t1) as [rs1 t2] eqn:EL. injection HT as <- <-. pose proof (Forall_inv HL) as HI. pose proof (Forall_inv_tail HL) as HL'. destruct act0; try contradiction; cbn [act] in EA.
    + injection EA as <- <-. cbn [arriving flat_map] in HA. fold (arriving l) in HA. destruct (coming_split _ _ _ _ _ HA Hj) as (i & Hi & -> & HA').
      destruct (IH (mkStream (Stream.arrive (coming a (firstn i rest)) (t_st t)) (t_lock t) (t_slot t) (t_begun t) (t_done t)) ps cs qs y y' (w ++ firstn i rest) (skipn i rest) (j - i)%nat rs1 t2 HR HP) as (k & Hk & Hc & H3 & H4).
      { rewrite <- app_assoc, firstn_skipn. exact EP. } { cbn [t_st]. rewrite ET, coming_arrive, <- arrive_app. reflexivity. } { exact HW. } { exact HL'. } { rewrite skipn_length. lia. } { exact HA'. } { exact EL. }
      rewrite app_length, firstn_length in Hk, H3. exists k. split; [lia|]. split; [exact Hc|]. split; [intros; apply H3; lia|exact H4].
    + cbn in HI. subst buf0. cbn [arriving flat_map app] in HA. fold (arriving l) in HA. destruct (K _ _ _ _ _ _ _ _ _ _ _ HR HP EP ET HW EA) as [(-> & W1 & S1)|(p & w' & c & cs' & q & qs' & y1 & -> & -> & -> & HR' & ET' & -> & W1)].
      * destruct (IH t1 ps cs qs y y' w rest j rs1 t2 HR HP EP ltac:(congruence) W1 HL' Hj HA EL) as (k & Hk & Hc & H3). exists k. auto.
      * destruct (IH t1 (w' ++ rest) cs' qs' y1 y' w' rest j rs1 t2 HR' HP eq_refl ET' W1 HL' Hj HA EL) as (k & Hk & Hc & H3 & H4). exists (S k). cbn [length]. split; [lia|].
        split; [cbn [firstn map concluded filter got_piece]; fold (concluded rs1); rewrite Hc; reflexivity|]. split; [intros; cbn [nth]; apply H3; lia|]. subst ps. cbn [app length]. intros. apply H4. lia.
Qed.

(** ** The writer *)
Lemma settles d x all x1 part later r s : run_op (OSendTo d) (Stream.arrive all x) = (Ret (VLen (Z.of_nat (length d))), x1) -> part ++ later = all -> run_op (OSendTo d) (Stream.arrive part x) = (r, s) ->
  r = Fail Pend \/ r = Fail NoFuel \/ r = Ret (VLen (Z.of_nat (length d))) /\ Stream.arrive later s = x1.
Proof.
  intros H E HR. assert (HE : Stream.arrive all x = Stream.arrive later (Stream.arrive part x)) by (subst all; unfold Stream.arrive; cbn [sk wd]; sproj; rewrite <- app_assoc; destruct (wd x); reflexivity).
  pose proof (proj1 (leads_run_op later (OSendTo d)) _ _ _ HR) as HL. change (ext later (Stream.arrive part x)) with (Stream.arrive later (Stream.arrive part x)) in HL. rewrite <- HE, H in HL.
  destruct r as [v|[]]; try (specialize (HL I); injection HL; intros; subst; auto; discriminate); auto.
Qed.
Lemma writer_runs d x all x1 l : run_op (OSendTo d) (Stream.arrive all x) = (Ret (VLen (Z.of_nat (length d))), x1) -> forall t part later rs t', t_st t = Stream.arrive part x -> wants SlWrite (OSendTo d) [] t ->
  t_slot t SlFlush = None -> writing d l -> part ++ arriving l ++ later = all -> acts l t = (rs, t') -> concluded rs = [] -> t_st t' = Stream.arrive (part ++ arriving l) x /\ wants SlWrite (OSendTo d) [] t' /\ t_slot t' SlFlush = None.
Proof.
  intros H. induction l as [|act0 l IH]; intros t part later rs t' ET HW HF HL HA HT HC; cbn [acts] in HT.
  - injection HT as <- <-. cbn [arriving flat_map]. rewrite app_nil_r. auto.
  - destruct (act act0 t) as [r t1] eqn:EA. destruct (acts l t1) as [rs1 t2] eqn:EL. injection HT as <- <-. pose proof (Forall_inv HL) as HI. pose proof (Forall_inv_tail HL) as HL'. destruct act0; try contradiction; cbn [act] in EA.
    + injection EA as <- <-. cbn [arriving flat_map] in *. fold (arriving l) in *. rewrite app_assoc. cbn in HC.
      apply (IH (mkStream (Stream.arrive evs (t_st t)) (t_lock t) (t_slot t) (t_begun t) (t_done t)) (part ++ evs) later rs1 t2); [cbn [t_st]; rewrite ET; apply arrive_arrive|exact HW|exact HF|exact HL'| |exact EL|exact HC]. rewrite <- HA, <- !app_assoc. reflexivity.
    + cbn in HI. subst buf. cbn [arriving flat_map app] in *. fold (arriving l) in *. unfold poll_write in EA. destruct (poll_future _ _ _) as [q t0] eqn:EP. destruct (poll_cases _ _ _ _ _ _ _ HW EP) as [HP _].
      assert (HR : r = Pending -> concluded rs1 = []) by (intros ->; exact HC).
      destruct HP as [t0 W1 S1 O1|v s t0 R1 S1 L1 O1|e s t0 q R1 N1 N2].
      * injection EA as <- <-. apply (IH t0 part later rs1 t2); [congruence|exact W1|rewrite O1 by discriminate; exact HF|exact HL'|exact HA|exact EL|auto].
      * rewrite ET in R1. destruct (settles _ _ _ _ _ (arriving l ++ later) _ _ H HA R1) as [|[|[E _]]]; try discriminate. injection E as ->. injection EA as <- <-. discriminate HC.
      * rewrite ET in R1. destruct (settles _ _ _ _ _ (arriving l ++ later) _ _ H HA R1) as [|[|[E _]]]; congruence.
Qed.
Lemma writer_ends d x all x1 t part later g r t' : run_op (OSendTo d) (Stream.arrive all x) = (Ret (VLen (Z.of_nat (length d))), x1) -> t_st t = Stream.arrive part x -> wants SlWrite (OSendTo d) [] t -> t_slot t SlFlush = None ->
  part ++ later = all -> poll_write d g t = (r, t') ->
  (r = Pending -> g = true -> later <> []) /\ (r <> Pending -> r = Ready (Ok (SvLen (Z.of_nat (length d)))) /\ Stream.arrive later (t_st t') = x1 /\ t_lock t' = None /\ t_slot t' SlFlush = None).
Proof.
  intros H ET HW HF HA HP. unfold poll_write in HP. destruct (poll_future _ _ _) as [q t0] eqn:EP. destruct (poll_cases _ _ _ _ _ _ _ HW EP) as [HC HG].
  destruct HC as [t0 W1 S1 O1|v s t0 R1 S1 L1 O1|e s t0 q R1 N1 N2].
  - injection HP as <- <-. split; [|congruence]. intros _ -> ->. rewrite app_nil_r in HA. subst part. specialize (HG eq_refl). rewrite ET, H in HG. cbn [fst] in HG. apply HG; [discriminate|discriminate|reflexivity].
  - rewrite ET in R1. destruct (settles _ _ _ _ _ later _ _ H HA R1) as [|[|[E E1]]]; try discriminate. injection E as ->. injection HP as <- <-. split; [discriminate|]. intros _. cbn [t_st t_lock set_slot]. rewrite S1.
    split; [reflexivity|]. split; [exact E1|]. split; [exact L1|]. cbn. rewrite O1 by discriminate. exact HF.
  - rewrite ET in R1. destruct (settles _ _ _ _ _ later _ _ H HA R1) as [|[|[E _]]]; congruence.
Qed.
Lemma flush_granted t s : t_slot t SlFlush = None -> t_lock t = None -> run_op OFlush (t_st t) = (Ret VUnit, s) -> exists t', poll_flush true t = (Ready (Ok SvUnit), t') /\ t_st t' = s.
Proof.
  intros HF HL HR. unfold poll_flush, finish_unit, ensure. rewrite HF. unfold poll_future. rewrite set_get. cbn [set_slot t_lock t_st t_begun t_done]. rewrite HL. unfold advance. cbn [t_st]. rewrite HR. eexists. split; reflexivity.
Qed.
Lemma pipe_runs ax ay d buf x y : joined ax ay x y -> listens x y -> lead x + packets d <= 32769 -> (1380 <= length buf)%nat ->
  exists x' y', piped ax ay d buf x y x' y' /\ joined ax ay x' y' /\ listens x' y' /\ (listens y x -> listens y' x') /\ lead x' <= lead x /\ lead y' = lead y.
Proof.
  intros HJ HL HR Hn. destruct (delivery_runs ax ay d (length buf) x y HJ HL HR Hn) as (x' & y' & HD & HJ' & HL' & HRest). exists x', y'. split; [|auto].
  destruct HD as (x1 & ps & cs & qs & H1 & H2 & H3 & H4 & H5 & H6 & H7 & H8). destruct (read_each_sent _ _ _ _ _ _ _ H3) as (S1 & N1 & N2). exists ps, cs, qs. do 4 (split; [assumption|]). split.
  - intros l later rs t g r t' HW HA HT HC HP. change (arrive ay qs x) with (Stream.arrive (coming ay qs) x) in H1.
    assert (E0 : x = Stream.arrive [] x) by (unfold Stream.arrive; rewrite app_nil_r; destruct x as [k []]; reflexivity).
    destruct (writer_runs d x (coming ay qs) x1 l H1 (stream_new x) [] later rs t E0 ltac:(left; split; reflexivity) eq_refl HW HA HT HC) as (T1 & T2 & T3). cbn [app] in T1.
    destruct (writer_ends d x (coming ay qs) x1 t (arriving l) later g r t' H1 T1 T2 T3 HA HP) as (K1 & K2). split; [exact K1|]. intros HN. destruct (K2 HN) as (E1 & E2 & E3 & E4). split; [exact E1|].
    destruct (flush_granted (mkStream (Stream.arrive later (t_st t')) (t_lock t') (t_slot t') (t_begun t') (t_done t')) x' E4 E3 ltac:(cbn [t_st]; rewrite E2; exact H6)) as (t'' & F1 & F2).
    exists t''. cbn [acts act]. rewrite F1. split; [reflexivity|]. split; [exact F2|]. unfold sent_to in *. rewrite H8, H2. cbn. apply app_nil_r.
  - intros l j rs t HW Hj HA HT. pose proof HJ' as (_ & HY & _).
    destruct (reader_runs ax buf l (stream_new y) ps cs qs y y' [] ps j rs t H3 (read_pends (length buf) y' HY) eq_refl ltac:(cbn; symmetry; apply arrive_nil) ltac:(left; split; reflexivity) HW Hj HA HT) as (k & K1 & K2 & K3 & K4).
    exists k. split; [exact K1|]. split; [exact K2|]. split; [exact K3|]. intros Hk. split; [exact (K4 Hk)|exact S1].
Qed.
