(** Second invariant of the adaptive pipeline: which Interests are outstanding, and how
    m_nInFlight relates to their number. *)
From Verif Require Import Base BaseFacts PipelineBase PipelineSpec FetcherModel AdaptiveModel AdaptiveProofs AdaptiveInv AdaptiveInv2.

Local Arguments Z.of_nat : simpl never.

(** * Trace functions, latest event first *)
Fixpoint flset (t : list pobs) : list N :=
  match t with [] => [] | o :: t' => fl_step (flset t') o end.

Definition in_fl (k : N) (l : list N) : bool := if in_dec N.eq_dec k l then true else false.

(** the number of loss signals and abandonments for segments that were not outstanding *)
Fixpoint stale (t : list pobs) : Z :=
  match t with
  | [] => 0
  | o :: t' =>
      match o with
      | OGotNack k NrCongestion | OGotExpiry k | OAbandon k => if in_fl k (flset t') then 0 else 1
      | _ => 0
      end + stale t'
  end.

Fixpoint wnd (w0 : Z) (t : list pobs) : Z :=
  match t with
  | [] => w0
  | OWindow w :: _ => w
  | _ :: t' => wnd w0 t'
  end.

Fixpoint sends_ok (w0 : Z) (t : list pobs) : Prop :=
  match t with
  | [] => True
  | o :: t' =>
      match o with
      | OInterest _ _ => Z.of_nat (length (flset t')) < wnd w0 t' + stale t'
      | ORto k => In k (flset t')
      | _ => True
      end /\ sends_ok w0 t'
  end.

Lemma nodup_remove k l : NoDup l -> NoDup (remove N.eq_dec k l).
Proof.
  induction l as [|x l IH]; cbn; [auto|]. intros H. inversion H as [|? ? Hni Hnd]; subst.
  destruct (N.eq_dec k x); auto. constructor; auto. intros Hin. apply in_remove in Hin. tauto.
Qed.

Lemma flset_nodup t : NoDup (flset t).
Proof.
  induction t as [|o t IH]; cbn; [constructor|].
  destruct o; cbn; auto using nodup_remove.
  - destruct r; auto using nodup_remove.
  - constructor; auto using nodup_remove. apply remove_In.
Qed.

Lemma length_remove k l : NoDup l ->
  Z.of_nat (length (remove N.eq_dec k l)) = Z.of_nat (length l) - (if in_fl k l then 1 else 0).
Proof.
  unfold in_fl.
  induction l as [|x l IH]; cbn [remove length]; [reflexivity|]. intros H.
  inversion H as [|? ? Hni Hnd]; subst. specialize (IH Hnd).
  destruct (N.eq_dec k x) as [->|Hne].
  - rewrite IH. destruct (in_dec N.eq_dec x l); [contradiction|].
    destruct (in_dec N.eq_dec x (x :: l)) as [|n1]; [lia|exfalso; apply n1; now left].
  - cbn [length]. destruct (in_dec N.eq_dec k l), (in_dec N.eq_dec k (x :: l)); try lia.
    + exfalso. apply n. now right.
    + exfalso. destruct i; [congruence|contradiction].
Qed.

Definition flk (k : N) (m : list (N * seginfo)) : bool :=
  match kget k m with Some i => negb (state_eqb (si_state i) InRetxQueue) | None => false end.

Lemma flk_kset k k' i m :
  flk k (kset k' i m) = if N.eqb k k' then negb (state_eqb (si_state i) InRetxQueue) else flk k m.
Proof. unfold flk. rewrite kget_kset. destruct (N.eqb k k'); reflexivity. Qed.
Lemma flk_kdel k k' m : flk k (kdel k' m) = negb (N.eqb k k') && flk k m.
Proof. unfold flk. rewrite kget_kdel. destruct (N.eqb k k'); reflexivity. Qed.
Lemma flk_filter (p : N -> bool) k m :
  flk k (filter (fun e => p (fst e)) m) = p k && flk k m.
Proof. unfold flk. rewrite kget_filter. destruct (p k); reflexivity. Qed.
Lemma flk_mem k m : flk k m = true -> kmem k m = true.
Proof. unfold flk, kmem. destruct (kget k m); congruence. Qed.

Section Flight.
Variable C : aconfig.
Context {W R : Type}.
Variable P : policy W R.
Notation st := (@astate W R).
Implicit Types s : st.
Notation hasFbi s := (b_hasFbi (a_b s)).
Notation last s := (b_last (a_b s)).
Notation stopping s := (b_stopping (a_b s)).
Notation w0 := (p_floor P (p_initW P)).

Record FlR s : Prop := {
  F_in : forall k, In k (flset (a_tr s)) <-> flk k (a_segs s) = true;
  F_w  : p_floor P (a_cwnd s) = wnd w0 (a_tr s);
  F_n  : Z.of_nat (length (flset (a_tr s))) <= a_nInFlight s + stale (a_tr s);
  F_rto: forall k i, kget k (a_segs s) = Some i -> exists x, si_rto i = p_rto P x
}.

Definition Fl s : Prop := sends_ok w0 (a_tr s) /\ (stopping s = false -> FlR s).

(** ** events without influence *)
Definition quiet (o : pobs) : bool :=
  match o with
  | OInterest _ _ | ORto _ | OGotExpiry _ | OGotNack _ NrCongestion | ODeliver _ _ | OAbandon _
  | OWindow _ => false
  | _ => true
  end.

Lemma quiet_trace o t : quiet o = true ->
  flset (o :: t) = flset t /\ stale (o :: t) = stale t /\ wnd w0 (o :: t) = wnd w0 t /\
  (sends_ok w0 (o :: t) <-> sends_ok w0 t).
Proof.
  intros H. destruct o; try discriminate; try (cbn; tauto).
  destruct r; try discriminate; cbn; tauto.
Qed.

Lemma fl_quiet o s s' :
  quiet o = true -> a_tr s' = o :: a_tr s -> a_segs s' = a_segs s -> a_retxq s' = a_retxq s ->
  a_nInFlight s' = a_nInFlight s -> a_cwnd s' = a_cwnd s -> stopping s' = stopping s ->
  Fl s -> Fl s'.
Proof.
  intros Hq Et Es Eq En Ew Est [HA HR].
  destruct (quiet_trace o (a_tr s) Hq) as (T1 & T2 & T3 & T4).
  split; [rewrite Et; tauto|]. rewrite Est. intros H. specialize (HR H). destruct HR.
  constructor; rewrite ?Et, ?Es, ?Eq, ?En, ?Ew, ?T1, ?T2, ?T3; auto.
Qed.

Lemma fl_same s s' :
  a_tr s' = a_tr s -> a_segs s' = a_segs s -> a_retxq s' = a_retxq s ->
  a_nInFlight s' = a_nInFlight s -> a_cwnd s' = a_cwnd s -> stopping s' = stopping s ->
  Fl s -> Fl s'.
Proof.
  intros Et Es Eq En Ew Est [HA HR]. split; [now rewrite Et|]. rewrite Est. intros H.
  specialize (HR H). destruct HR. constructor; rewrite ?Et, ?Es, ?Eq, ?En, ?Ew; auto.
Qed.

(** ** stopping *)
Lemma fl_stop s s' o :
  quiet o = true -> a_tr s' = o :: a_tr s -> stopping s' = true -> sends_ok w0 (a_tr s) -> Fl s'.
Proof.
  intros Hq Et Hs H. destruct (quiet_trace o (a_tr s) Hq) as (_ & _ & _ & T4).
  split; [rewrite Et; tauto|]. congruence.
Qed.

Lemma cancel_tr s : a_tr (cancel s) = a_tr s.
Proof. unfold cancel. destruct (isStopping s); reflexivity. Qed.
Lemma cancel_stop s : stopping (cancel s) = true.
Proof. unfold cancel, isStopping. destruct (stopping s) eqn:E; [exact E|reflexivity]. Qed.

Lemma fl_onFailure rs s : sends_ok w0 (a_tr s) -> stopping s = false -> Fl (onFailure rs s).
Proof.
  intros H Hs. unfold onFailure, isStopping. rewrite Hs.
  eapply (fl_stop s) with (o := OFail rs); auto; cbn; [now rewrite cancel_tr|apply cancel_stop].
Qed.

(** ** abandoning several segments *)
Lemma abandon_trace l : forall t,
  let t' := map OAbandon l ++ t in
  (forall k, In k (flset t') <-> In k (flset t) /\ ~ In k l) /\
  Z.of_nat (length (flset t')) - stale t' = Z.of_nat (length (flset t)) - stale t - Z.of_nat (length l) /\
  wnd w0 t' = wnd w0 t /\ (sends_ok w0 t -> sends_ok w0 t').
Proof.
  induction l as [|x l IH]; intros t t'; subst t'; cbn [map app].
  - repeat split; try tauto. cbn. lia.
  - destruct (IH t) as (I1 & I2 & I3 & I4). split; [|split; [|split; [|cbn; tauto]]].
    + intros k. cbn [flset fl_step]. split.
      * intros H. apply in_remove in H. rewrite I1 in H. cbn. intuition congruence.
      * intros [H1 H2]. cbn in H2. apply in_in_remove; [intuition congruence|]. apply I1. tauto.
    + cbn [stale flset fl_step length]. rewrite length_remove by apply flset_nodup.
      destruct (in_fl x (flset (map OAbandon l ++ t))); lia.
    + cbn. exact I3.
Qed.

Lemma cancelGreater_tr' n s :
  a_tr (cancelGreater n s) = map OAbandon (keys (filter (fun e => N.ltb n (fst e)) (a_segs s))) ++ a_tr s.
Proof. unfold keys. cbn. now rewrite map_map. Qed.

Lemma keys_gone n (m : list (N * seginfo)) k :
  In k (keys (filter (fun e => N.ltb n (fst e)) m)) <-> (n < k)%N /\ kmem k m = true.
Proof.
  rewrite <- kmem_keys, (kmem_filter (fun k => N.ltb n k)).
  destruct (N.ltb_spec n k), (kmem k m); cbn; intuition (lia || discriminate || auto).
Qed.

Lemma fl_cancelGreater n s : Fl s -> Fl (cancelGreater n s).
Proof.
  intros [HA HR]. set (g := keys (filter (fun e => N.ltb n (fst e)) (a_segs s))).
  destruct (abandon_trace g (a_tr s)) as (T1 & T2 & T3 & T4). fold g in T1, T2, T3, T4.
  pose proof (cancelGreater_tr' n s) as Et. fold g in Et. split.
  - rewrite Et. auto.
  - change (stopping (cancelGreater n s)) with (stopping s). intros Hs. destruct (HR Hs).
    assert (Es : a_segs (cancelGreater n s) = filter (fun e => negb (N.ltb n (fst e))) (a_segs s)) by reflexivity.
    assert (Hfl : forall k, flk k (a_segs (cancelGreater n s)) = negb (N.ltb n k) && flk k (a_segs s)).
    { intros k. rewrite Es. apply (flk_filter (fun k => negb (N.ltb n k))). }
    constructor; rewrite ?Et.
    + intros k. rewrite T1, F_in0, Hfl. unfold g. rewrite keys_gone. split.
      * intros [H1 H2]. rewrite H1. destruct (N.ltb_spec n k); [|reflexivity].
        exfalso. apply H2. split; [lia|now apply flk_mem].
      * intros H. apply andb_prop in H. destruct H as [H1 H2]. split; [exact H2|].
        apply negb_true_iff, N.ltb_ge in H1. lia.
    + rewrite T3. exact F_w0.
    + cbn [cancelGreater a_nInFlight]. change (a_nInFlight (cancelGreater n s))
        with (a_nInFlight s - Z.of_nat (length (filter (fun e => N.ltb n (fst e)) (a_segs s)))).
      unfold g, keys in T2 |- *. rewrite map_length in T2. lia.
    + intros k i. rewrite Es, (kget_filter (fun k => negb (N.ltb n k))).
      destruct (negb (N.ltb n k)); [|discriminate]. apply F_rto0.
Qed.

(** ** handleFail *)
Lemma fl_handleFail seg rs s : stopping s = false -> Fl s -> Fl (handleFail seg rs s).
Proof.
  intros Hs [HA HR]. unfold handleFail, isStopping. rewrite Hs.
  destruct (hasFbi s && N.leb seg (last s)); [now apply fl_onFailure|].
  destruct (negb (hasFbi s)); [|split; auto].
  set (s1 := set_nInFlight _ _).
  assert (H1 : Fl s1).
  { specialize (HR Hs). destruct HR. split; [cbn; tauto|]. intros _. constructor; cbn.
    - intros k. rewrite flk_kdel. split.
      + intros H. apply in_remove in H. destruct H as [H1 H2]. apply F_in0 in H1. rewrite H1.
        destruct (N.eqb_spec k seg); [congruence|reflexivity].
      + intros H. apply andb_prop in H. destruct H as [H1 H2]. apply in_in_remove; [|now apply F_in0].
        apply negb_true_iff, N.eqb_neq in H1. congruence.
    - exact F_w0.
    - rewrite length_remove by apply flset_nodup. destruct (in_fl seg (flset (a_tr s))); lia.
    - intros k i. rewrite kget_kdel. destruct (N.eqb k seg); [discriminate|]. apply F_rto0. }
  assert (Hs1 : stopping s1 = false) by exact Hs.
  destruct (a_segs s1).
  - apply fl_onFailure; [apply H1|exact Hs1].
  - eapply (fl_same (cancelGreater seg s1)); try reflexivity. now apply fl_cancelGreater.
Qed.

(** ** sending *)
Lemma fl_express seg retx s :
  stopping s = false ->
  a_nInFlight s < p_floor P (a_cwnd s) ->
  Fl s -> Fl (express P seg retx s).
Proof.
  intros Hs Hw [HA HR]. specialize (HR Hs). destruct HR. split.
  - unfold express. destruct retx; cbn; split; auto; rewrite <- F_w0; lia.
  - intros _.
    assert (E : forall (x : st), FlR x -> FlR (set_nRetx (a_nRetx x + 1) x) /\ FlR (set_highInterest seg x)).
    { intros x []. split; constructor; cbn; auto. }
    assert (H : FlR (set_nSent (a_nSent s + 1) (set_nInFlight (a_nInFlight s + 1)
              (set_segs (kset seg (SegInfo true (a_now s) (p_rto P (a_rtt s))
                 (if retx then Retransmitted else FirstTimeSent)) (a_segs s)) (emit (OInterest seg retx) s))))).
    { constructor; cbn.
      - intros k. rewrite flk_kset. destruct (N.eqb_spec k seg) as [->|Hne].
        + split; [intros _; destruct retx; reflexivity|now left].
        + rewrite <- F_in0. split.
          * intros [->|H]; [congruence|]. apply in_remove in H. tauto.
          * intros H. right. now apply in_in_remove.
      - exact F_w0.
      - rewrite Nat2Z.inj_succ, length_remove by apply flset_nodup.
        destruct (in_fl seg (flset (a_tr s))); lia.
      - intros k i. rewrite kget_kset. destruct (N.eqb k seg); [|apply F_rto0].
        intros [= <-]. cbn. eauto. }
    destruct (E _ H) as [H1 H2]. unfold express. destruct retx; assumption.
Qed.

Lemma fl_set_retxq q s : Fl s -> Fl (set_retxq q s).
Proof. intros [HA HR]. split; [exact HA|]. intros Hs. destruct (HR Hs). constructor; cbn; auto. Qed.

Lemma fl_dropSkipped q : forall s,
  Fl (set_retxq q s) -> Fl (dropSkipped q s).
Proof.
  induction q as [|k q IH]; intros s HL; cbn; [exact HL|].
  destruct (kmem k (a_segs s)) eqn:E; [exact HL|].
  apply IH. eapply (fl_quiet (OSkip k) (set_retxq q s)); try reflexivity.
  destruct HL as [HA HR]. split; [exact HA|]. intros Hs. destruct (HR Hs). constructor; cbn in *; auto.
Qed.

Definition slackw s : Prop := stopping s = false -> a_nInFlight s < p_floor P (a_cwnd s).

Lemma nInFlight_handleFail seg rs s : a_nInFlight (handleFail seg rs s) <= a_nInFlight s /\ a_cwnd (handleFail seg rs s) = a_cwnd s.
Proof.
  unfold handleFail, onFailure, cancel. destruct (isStopping s) eqn:Hs; [split; [lia|reflexivity]|].
  destruct (hasFbi s && N.leb seg (last s)); [cbn; split; [lia|reflexivity]|].
  destruct (negb (hasFbi s)); [|split; [lia|reflexivity]]. cbn.
  destruct (kdel seg (a_segs s)); cbn.
  - unfold isStopping. cbn. unfold isStopping in Hs. rewrite Hs. cbn. split; [lia|reflexivity].
  - split; [lia|reflexivity].
Qed.

Lemma fl_sendOne s :
  Live C s -> Fl s -> slackw s ->
  Fl (sendOne P C s) /\ a_nInFlight (sendOne P C s) <= a_nInFlight s + 1 /\
  a_cwnd (sendOne P C s) = a_cwnd s.
Proof.
  intros HL HF Hsl. unfold sendOne.
  assert (HL' : Live C (set_retxq (a_retxq s) s)) by (destruct s; exact HL).
  assert (HF' : Fl (set_retxq (a_retxq s) s)) by (destruct s; exact HF).
  destruct (live_dropSkipped C _ _ HL') as (HL1 & (Eb & Es & En & Ew & _) & Hhd).
  apply fl_dropSkipped in HF'.
  set (s1 := dropSkipped (a_retxq s) s) in *.
  assert (Hsl1 : slackw s1) by (unfold slackw in *; rewrite Eb, En, Ew; exact Hsl).
  rewrite <- Es in Hhd. rewrite <- En, <- Ew. clearbody s1. clear s HL HL' Eb Es En Ew HF Hsl.
  destruct HL1 as [HA HR].
  destruct (a_retxq s1) as [|seg q] eqn:Eq.
  - cbn [b_getNext]. unfold sendInterest, isStopping.
    cbn [set_b a_b b_stopping b_hasFbi b_last b_next a_hasFailure negb andb].
    set (s2 := set_b _ s1).
    assert (HF2 : Fl s2) by (eapply (fl_same s1); try reflexivity; exact HF').
    destruct (stopping s1) eqn:Hs; [split; [exact HF2|split; [cbn; lia|reflexivity]]|].
    specialize (HR eq_refl).
    destruct (hasFbi s1 && N.ltb (last s1) (b_next (a_b s1))) eqn:E1;
      [split; [exact HF2|split; [cbn; lia|reflexivity]]|].
    destruct (a_hasFailure s1) eqn:E2; [split; [exact HF2|split; [cbn; lia|reflexivity]]|].
    split; [|split; [cbn; lia|reflexivity]].
    apply fl_express; auto.
  - specialize (Hhd _ _ eq_refl).
    destruct (stopping s1) eqn:Hs.
    { exfalso. rewrite (A_stop _ _ HA Hs) in Hhd. discriminate. }
    assert (HF2 : Fl (set_retxq q s1)).
    { now apply fl_set_retxq. }
    assert (HF3 : forall m, Fl (set_retxCount (kset seg m (a_retxCount s1)) (set_retxq q s1))).
    { intros m. eapply (fl_same (set_retxq q s1)); try reflexivity. exact HF2. }
    unfold sendInterest, isStopping. cbn [set_retxq a_b b_stopping]. rewrite Hs.
    change (a_retxCount (set_retxq q s1)) with (a_retxCount s1).
    destruct (hasFbi s1 && N.ltb (last s1) seg); [split; [exact HF2|split; [cbn; lia|reflexivity]]|].
    cbn [negb andb].
    assert (Hex : forall m, Fl (express P seg true (set_retxCount (kset seg m (a_retxCount s1)) (set_retxq q s1)))).
    { intros m. apply fl_express; auto. }
    destruct (kget seg (a_retxCount s1)) as [m|].
    + destruct (_ && _).
      * split; [apply fl_handleFail; auto|].
        match goal with |- context[handleFail ?a ?b ?c] => pose proof (nInFlight_handleFail a b c) as [H1 H2] end.
        split; [cbn in H1; lia|exact H2].
      * split; [apply Hex|split; [cbn; lia|reflexivity]].
    + split; [apply Hex|split; [cbn; lia|reflexivity]].
Qed.

Lemma fl_iter n : forall s,
  Live C s -> Fl s -> (n = O \/ a_nInFlight s + Z.of_nat n <= p_floor P (a_cwnd s)) ->
  Fl (iter n (sendOne P C) s).
Proof.
  induction n; cbn; auto. intros s HL HF Hn.
  destruct (fl_sendOne s HL HF) as (H1 & H2 & H3); [intros _; lia|].
  apply IHn; [now apply live_sendOne|exact H1|]. rewrite H3. lia.
Qed.

Lemma fl_schedule s : Live C s -> Fl s -> Fl (schedulePackets P C s).
Proof.
  intros HL HF. unfold schedulePackets.
  set (s1 := if a_nInFlight s <? 0 then emit OAssert s else s).
  assert (H : Live C s1 /\ Fl s1 /\ a_nInFlight s1 = a_nInFlight s /\ a_cwnd s1 = a_cwnd s).
  { unfold s1. destruct (a_nInFlight s <? 0); [|tauto].
    split; [apply live_neutral; cbn; auto|]. split; [|auto].
    eapply (fl_quiet OAssert s); try reflexivity. exact HF. }
  clearbody s1. destruct H as (HL1 & HF1 & E1 & E2). apply fl_iter; auto.
  rewrite ?E1, ?E2. lia.
Qed.

(** ** window changes *)
Lemma fl_window w s s' :
  a_tr s' = OWindow (p_floor P w) :: a_tr s -> a_cwnd s' = w ->
  a_segs s' = a_segs s -> a_retxq s' = a_retxq s -> a_nInFlight s' = a_nInFlight s ->
  stopping s' = stopping s -> Fl s -> Fl s'.
Proof.
  intros Et Ew Es Eq En Est [HA HR]. split; [rewrite Et; cbn; auto|]. rewrite Est. intros Hs.
  destruct (HR Hs). constructor; rewrite ?Et, ?Es, ?Eq, ?En, ?Ew; cbn; auto; try tauto.
Qed.

Lemma fl_recordTimeout seg s : Fl s -> Fl (recordTimeout P C seg s).
Proof.
  intros HF. unfold recordTimeout. destruct (_ || _); [|exact HF].
  eapply (fl_quiet (ODecrLoss seg) (decreaseWindow P (set_recPoint (a_highInterest s) s))); try reflexivity.
  eapply (fl_window _ (set_recPoint (a_highInterest s) s)); try reflexivity.
  eapply (fl_same s); try reflexivity. exact HF.
Qed.

(** ** loss *)
Lemma fl_enqueue seg o s s' :
  match o with ORto k | OGotExpiry k | OGotNack k NrCongestion => k = seg | _ => False end ->
  (match o with ORto _ => flk seg (a_segs s) = true | _ => True end) ->
  a_tr s' = o :: a_tr s -> a_segs s' = a_segs s -> a_retxq s' = a_retxq s ->
  a_nInFlight s' = a_nInFlight s -> a_cwnd s' = a_cwnd s -> stopping s' = stopping s ->
  stopping s = false -> kmem seg (a_segs s) = true ->
  Fl s -> Fl (enqueueForRetransmission seg s').
Proof.
  intros Ho Hrto Et Es Eq En Ew Est Hs Hm [HA HR]. specialize (HR Hs). destruct HR.
  assert (Hfl : flset (o :: a_tr s) = remove N.eq_dec seg (flset (a_tr s))).
  { destruct o; try contradiction; cbn; try (now subst). destruct r; try contradiction. now subst. }
  assert (Hnd : stale (o :: a_tr s) = (if in_fl seg (flset (a_tr s)) then 0 else 1) + stale (a_tr s)).
  { destruct o; try contradiction; cbn.
    - destruct r; try contradiction. now subst.
    - now subst.
    - subst. apply F_in0 in Hrto. unfold in_fl. destruct (in_dec _ _ _); [reflexivity|contradiction]. }
  assert (Hwn : wnd w0 (o :: a_tr s) = wnd w0 (a_tr s)).
  { destruct o; try contradiction; reflexivity. }
  assert (Hso : sends_ok w0 (o :: a_tr s)).
  { destruct o; try contradiction; cbn; auto. split; [|exact HA]. subst. now apply F_in0. }
  unfold enqueueForRetransmission.
  set (s1 := if 0 <? a_nInFlight s' then s' else emit OAssert s').
  assert (H1 : a_segs s1 = a_segs s /\ a_retxq s1 = a_retxq s /\ a_nInFlight s1 = a_nInFlight s /\
               a_cwnd s1 = a_cwnd s /\ stopping s1 = false /\
               flset (a_tr s1) = flset (o :: a_tr s) /\ stale (a_tr s1) = stale (o :: a_tr s) /\
               wnd w0 (a_tr s1) = wnd w0 (o :: a_tr s) /\ sends_ok w0 (a_tr s1)).
  { unfold s1. rewrite <- Et in *. destruct (0 <? a_nInFlight s'); cbn; repeat split; try congruence; tauto. }
  clearbody s1. clear s' Et Es Eq En Ew Est.
  destruct H1 as (Es & Eq & En & Ew & Est & T1 & T2 & T3 & T4).
  cbn [set_retxq set_nInFlight a_segs]. rewrite Es.
  apply kmem_true in Hm. destruct Hm as [i Hi]. rewrite Hi.
  split; [exact T4|]. intros _. constructor; cbn; rewrite ?Es, ?T1, ?T2, ?T3, ?En, ?Ew, ?Eq.
  - intros k. rewrite Hfl, flk_kset. destruct (N.eqb_spec k seg) as [->|Hne].
    + split; [|discriminate]. intros H. exfalso. now apply remove_In in H.
    + rewrite <- F_in0. split; [intros H; apply in_remove in H; tauto|intros H; now apply in_in_remove].
  - now rewrite Hwn.
  - rewrite Hfl, length_remove, Hnd by apply flset_nodup.
    destruct (in_fl seg (flset (a_tr s))); lia.
  - intros k j. rewrite kget_kset. destruct (N.eqb k seg); [|apply F_rto0].
    intros [= <-]. cbn. eauto.
Qed.

Lemma fl_checkRto1 s has high seg :
  Fl s -> stopping s = false -> a_crashed s = false -> Fl (fst (fst (checkRto1 (s, has, high) seg))).
Proof.
  intros HF Hs Hc. unfold checkRto1.
  destruct (kget seg (a_segs s)) as [i|] eqn:Ei; [|exact HF].
  destruct (negb (state_eqb (si_state i) InRetxQueue) && (si_rto i <? a_now s - si_timeSent i)) eqn:E; [|exact HF].
  apply andb_prop in E. destruct E as [E _]. cbn [fst].
  eapply (fl_enqueue seg (ORto seg) s); try reflexivity; auto.
  - unfold flk. now rewrite Ei.
  - apply kmem_true. eauto.
Qed.

Lemma fl_checkRto_fold l : forall s has high,
  Live C s -> Fl s -> ((high < nf (a_tr s))%N /\ lostIn high (a_tr s) \/ has = false /\ high = 0%N) -> stopping s = false ->
  a_crashed s = false ->
  Fl (fst (fst (fold_left checkRto1 l (s, has, high)))).
Proof.
  induction l as [|seg l IH]; intros s has high HL HF Hh Hs Hc; cbn [fold_left]; [exact HF|].
  pose proof (live_checkRto1 C s has high seg HL Hh Hs) as H.
  pose proof (fl_checkRto1 s has high seg HF Hs Hc) as HF1.
  destruct (checkRto1 (s, has, high) seg) as [[s1 has1] high1]. cbn [fst] in HF1.
  destruct H as (HL1 & Hh1 & (K1 & K2 & _)). apply IH; auto; congruence.
Qed.

Lemma fl_checkRto order s : a_crashed s = false -> Live C s -> Fl s -> Fl (checkRto P C order s).
Proof.
  intros Hc HL HF. unfold checkRto, isStopping. destruct (stopping s) eqn:Hs; [exact HF|].
  set (l := visit_order order (keys (a_segs s))).
  assert (Hh : (0 < nf (a_tr s))%N /\ lostIn 0 (a_tr s) \/ false = false /\ 0%N = 0%N) by auto.
  pose proof (live_checkRto_fold C l s false 0%N HL Hh Hs) as H.
  pose proof (fl_checkRto_fold l s false 0%N HL HF Hh Hs Hc) as H'.
  destruct (fold_left checkRto1 l (s, false, 0%N)) as [[s1 has1] high1]. cbn [fst] in H'.
  destruct H as (HL1 & Hh1 & _).
  destruct (a_crashed s1); [exact H'|].
  eapply (fl_same (if has1 then schedulePackets P C (recordTimeout P C high1 s1) else s1)); try reflexivity.
  destruct has1; [|exact H'].
  apply fl_schedule; [|now apply fl_recordTimeout].
  destruct Hh1 as [[Hh1 Hh2]|[Hh1 _]]; [|discriminate]. now apply live_recordTimeout.
Qed.

(** ** handlers *)
Lemma fl_lostevent seg o s s' :
  match o with OGotExpiry k | OGotNack k NrCongestion => k = seg | _ => False end ->
  a_tr s' = o :: a_tr s -> a_segs s' = a_segs s -> a_retxq s' = a_retxq s ->
  a_nInFlight s' = a_nInFlight s -> a_cwnd s' = a_cwnd s -> stopping s' = stopping s ->
  stopping s = false -> kmem seg (a_segs s) = true ->
  slack s' -> Live C s' ->
  Fl s -> Fl (let s' := enqueueForRetransmission seg s' in
              if a_crashed s' then s' else schedulePackets P C (recordTimeout P C seg s')).
Proof.
  intros Ho Et Es Eq En Ew Est Hs Hm Hsl HL' HF.
  assert (HF1 : Fl (enqueueForRetransmission seg s')).
  { apply (fl_enqueue seg o s); auto; destruct o; try contradiction; auto. }
  assert (Hm' : kmem seg (a_segs s') = true) by (rewrite Es; exact Hm).
  destruct (live_enqueue C seg s' Hm' Hsl HL') as (HL1 & (_ & _ & _ & K & _ & K') & _).
  cbv zeta. set (s1 := enqueueForRetransmission seg s') in *. clearbody s1.
  destruct (a_crashed s1); [exact HF1|].
  apply fl_schedule; [|now apply fl_recordTimeout].
  apply live_recordTimeout; [| |exact HL1].
  - rewrite K. destruct HL' as [_ HR']. apply (R_keys _ _ (HR' ltac:(congruence))). exact Hm'.
  - exists o. split; [apply K'; rewrite Et; now left|].
    destruct o; try contradiction; cbn; subst; try apply N.eqb_refl.
    destruct r; try contradiction. subst. apply N.eqb_refl.
Qed.

Lemma fl_handleNack seg rr s :
  stopping s = false -> kmem seg (a_segs s) = true -> Live C s -> Fl s ->
  Fl (handleNack P C seg rr (emit (OGotNack seg rr) s)).
Proof.
  intros Hs Hm HL HF. unfold handleNack, isStopping. cbn [emit set_tr a_b]. rewrite Hs.
  assert (HQ : quiet (OGotNack seg rr) = true -> Fl (emit (OGotNack seg rr) s)).
  { intros Hq. eapply (fl_quiet (OGotNack seg rr) s); try reflexivity; auto. }
  destruct rr; try (apply fl_handleFail; [exact Hs|apply HQ; reflexivity]).
  - assert (Hlt : (seg < nf (a_tr s))%N) by (destruct HL as [_ HR]; apply (R_keys _ _ (HR Hs)); auto).
    destruct (live_lost C seg s Hlt HL) as [HL1 Hsl1].
    apply (fl_lostevent seg (OGotNack seg NrCongestion) s); auto.
  - apply HQ. reflexivity.
Qed.

Lemma fl_handleExpire seg s :
  stopping s = false -> kmem seg (a_segs s) = true -> Live C s -> Fl s ->
  Fl (handleLifetimeExpiration P C seg (emit (OGotExpiry seg) s)).
Proof.
  intros Hs Hm HL HF. unfold handleLifetimeExpiration, isStopping. cbn [emit set_tr a_b]. rewrite Hs.
  assert (Hlt : (seg < nf (a_tr s))%N) by (destruct HL as [_ HR]; apply (R_keys _ _ (HR Hs)); auto).
  destruct (live_timeout C (OGotExpiry seg) s Hlt HL) as [HL1 Hsl1].
  apply (fl_lostevent seg (OGotExpiry seg) s); auto.
Qed.

Lemma fl_adaptWindow seg d s : Fl s -> Fl (adaptWindow P C seg d s).
Proof.
  intros HF. unfold adaptWindow, increaseWindow, decreaseWindow.
  destruct (d_mark d); [destruct (negb (c_ignoreCongMarks C)); [|]|].
  - destruct (_ || _).
    + eapply (fl_window _ (emit (ODecrMark seg) s)); try reflexivity.
      eapply (fl_quiet (ODecrMark seg) s); try reflexivity. exact HF.
    + eapply (fl_same s); try reflexivity. exact HF.
  - eapply (fl_window _ s); try reflexivity. exact HF.
  - eapply (fl_window _ s); try reflexivity. exact HF.
Qed.

Lemma adaptWindow_keep seg d s :
  let s' := adaptWindow P C seg d s in
  a_segs s' = a_segs s /\ a_retxq s' = a_retxq s /\ a_nInFlight s' = a_nInFlight s /\
  stopping s' = stopping s /\ a_crashed s' = a_crashed s.
Proof.
  unfold adaptWindow, increaseWindow, decreaseWindow.
  destruct (d_mark d); [destruct (negb (c_ignoreCongMarks C)); [destruct (_ || _)|]|]; cbn; auto.
Qed.

Lemma fl_learnFbi seg d s :
  stopping s = false -> Fl s -> Fl (fst (learnFbi d (emit (OGotData seg d) s))).
Proof.
  intros Hs HF. unfold learnFbi.
  assert (HF1 : Fl (emit (OGotData seg d) s)).
  { eapply (fl_quiet (OGotData seg d) s); try reflexivity. exact HF. }
  destruct (b_hasFbi _); [exact HF1|]. destruct (d_fbi d) as [|n|]; [exact HF1| |].
  - set (s1 := cancelGreater n _).
    assert (HF2 : Fl s1).
    { apply fl_cancelGreater. eapply (fl_same (emit (OGotData seg d) s)); try reflexivity. exact HF1. }
    destruct (_ && _); cbn [fst].
    + apply fl_onFailure; [apply HF2|exact Hs].
    + eapply (fl_same s1); try reflexivity. exact HF2.
  - cbn [fst]. eapply (fl_quiet OThrow (emit (OGotData seg d) s)); try reflexivity. exact HF1.
Qed.

(** handing over a segment and forgetting it *)
Lemma fl_deliver seg d i s :
  stopping s = false -> kget seg (a_segs s) = Some i ->
  a_nInFlight s = (if state_eqb (si_state i) InRetxQueue then a_nInFlight s else a_nInFlight s) ->
  Fl s ->
  let v := if state_eqb (si_state i) InRetxQueue then a_nInFlight s else a_nInFlight s - 1 in
  forall s', a_tr s' = ODeliver seg d :: a_tr s -> a_segs s' = kdel seg (a_segs s) ->
    a_retxq s' = a_retxq s -> a_nInFlight s' = v -> a_cwnd s' = a_cwnd s -> stopping s' = stopping s ->
  Fl s'.
Proof.
  intros Hs Hi _ [HA HR] v s' Et Es Eq En Ew Est. specialize (HR Hs). destruct HR.
  split; [rewrite Et; cbn; auto|]. intros _.
  constructor; rewrite ?Et, ?Es, ?Eq, ?En, ?Ew; cbn [stale wnd flset fl_step].
  - intros k. rewrite flk_kdel. split.
    + intros H. apply in_remove in H. destruct H as [H1 H2]. apply F_in0 in H1. rewrite H1.
      destruct (N.eqb_spec k seg); [congruence|reflexivity].
    + intros H. apply andb_prop in H. destruct H as [H1 H2]. apply in_in_remove; [|now apply F_in0].
      apply negb_true_iff, N.eqb_neq in H1. congruence.
  - exact F_w0.
  - rewrite length_remove by apply flset_nodup.
    assert (Hin : In seg (flset (a_tr s)) <-> negb (state_eqb (si_state i) InRetxQueue) = true).
    { rewrite F_in0. unfold flk. now rewrite Hi. }
    unfold v, in_fl. destruct (in_dec N.eq_dec seg (flset (a_tr s))) as [H|H].
    + apply Hin in H. destruct (state_eqb (si_state i) InRetxQueue); [discriminate|lia].
    + destruct (state_eqb (si_state i) InRetxQueue); [lia|]. exfalso. apply H, Hin. reflexivity.
  - intros k j. rewrite kget_kdel. destruct (N.eqb k seg); [discriminate|]. apply F_rto0.
Qed.

Lemma adaptWindow_nInFlight seg d v s :
  adaptWindow P C seg d (set_nInFlight v s) = set_nInFlight v (adaptWindow P C seg d s).
Proof.
  unfold adaptWindow, increaseWindow, decreaseWindow.
  destruct (d_mark d); [destruct (negb (c_ignoreCongMarks C)); [cbn; destruct (_ || _)|]|]; reflexivity.
Qed.

Definition FI s : Prop := sends_ok w0 (a_tr s) /\ (a_crashed s = false -> stopping s = false -> FlR s).

Lemma fl_fi s : Fl s -> FI s.
Proof. intros [H1 H2]. split; auto. Qed.
Lemma fi_fl s : a_crashed s = false -> FI s -> Fl s.
Proof. intros Hc [H1 H2]. split; auto. Qed.

Lemma fi_handleData seg d s :
  stopping s = false -> a_crashed s = false -> kmem seg (a_segs s) = true -> Live C s -> Fl s ->
  FI (handleData P C seg d (emit (OGotData seg d) s)).
Proof.
  intros Hs Hc Hmm HL HF. unfold handleData, isStopping. cbn [emit set_tr a_b]. rewrite Hs.
  assert (Hl0 : (seg < nf (a_tr s))%N) by (destruct HL as [_ HR]; apply (R_keys _ _ (HR Hs)); auto).
  pose proof (inv_learnFbi C seg d s Hs Hc Hl0 HL) as H. clear Hmm Hl0.
  pose proof (fl_learnFbi seg d s Hs HF) as HF1.
  cbn [emit] in H, HF1. destruct (learnFbi d _) as [s1 cont]. cbn [fst] in HF1.
  destruct H as (HI & Hcont & _). destruct cont; [|now apply fl_fi]. cbn [negb].
  destruct (Hcont eq_refl) as (Hs1 & Hc1 & Hgot & _). clear Hcont.
  apply inv_live in HI; [|exact Hc1]. clear s Hs Hc HL HF. rename s1 into s.
  destruct (kget seg (a_segs s)) as [i|] eqn:Ei; [|now apply fl_fi].
  set (v := if state_eqb (si_state i) InRetxQueue then a_nInFlight s else a_nInFlight s - 1).
  destruct HI as [HA HR]. specialize (HR Hs1).
  assert (Hm : kmem seg (a_segs s) = true) by (apply kmem_true; eauto).
  assert (Hlt : (seg < nf (a_tr s))%N) by (apply (R_keys _ _ HR); auto).
  assert (Hnew : ~ In seg (dl (a_tr s))).
  { intros H. apply (R_fresh _ _ HR) in H. congruence. }
  pose proof (always_delivered C P seg d v s HA Hs1 Hlt Hnew Hgot) as HA1.
  destruct (eff_delivered C P seg d v s) as (l1 & HE1 & Hn1 & Hl1).
  cbn [set_highData a_nInFlight].
  replace (if state_eqb (si_state i) InRetxQueue
           then set_highData (N.max (a_highData s) seg) s
           else set_nInFlight (a_nInFlight s - 1) (set_highData (N.max (a_highData s) seg) s))
    with (set_nInFlight v (set_highData (N.max (a_highData s) seg) s))
    by (unfold v; destruct (state_eqb (si_state i) InRetxQueue); destruct s; reflexivity).
  unfold onData.
  change (emit (ODeliver seg d) _) with (delivered C P seg d v s).
  set (sa := adaptWindow P C seg d (set_highData (N.max (a_highData s) seg) s)).
  assert (HFa : Fl sa).
  { apply fl_adaptWindow. eapply (fl_same s); try reflexivity. exact HF1. }
  pose proof (adaptWindow_keep seg d (set_highData (N.max (a_highData s) seg) s)) as HK.
  fold sa in HK. cbn in HK. destruct HK as (K1 & K2 & K3 & K4 & K5).
  assert (HFd : Fl (set_segs (kdel seg (a_segs (delivered C P seg d v s))) (delivered C P seg d v s))).
  { eapply (fl_deliver seg d i sa); try exact HFa.
    - congruence.
    - now rewrite K1.
    - now destruct (state_eqb (si_state i) InRetxQueue).
    - unfold delivered. rewrite adaptWindow_nInFlight. reflexivity.
    - cbn [set_segs a_segs]. rewrite (E_segs _ _ _ HE1), K1. reflexivity.
    - cbn [set_segs a_retxq]. rewrite (E_q _ _ _ HE1), K2. reflexivity.
    - cbn [set_segs a_nInFlight]. rewrite Hn1, K3. reflexivity.
    - unfold delivered. rewrite adaptWindow_nInFlight. reflexivity.
    - cbn [set_segs a_b]. rewrite (E_stop _ _ _ HE1), K4. reflexivity. }
  clearbody sa. clear HFa K1 K2 K3 K4 K5.
  set (s1 := delivered C P seg d v s) in *. clearbody s1.
  destruct (c_cbThrows C d).
  { cbn [throw set_crashed a_crashed]. split; [|discriminate]. destruct HFd as [HFd _]. cbn in *. auto. }
  rewrite (E_crash _ _ _ HE1), Hc1.
  assert (Hr : 0 <= a_now s - si_timeSent i) by (pose proof (R_time _ _ HR _ _ Ei); lia).
  pose proof (always_sampleRtt C P seg i _ s1 Hr HA1) as HA2.
  destruct (sampleRtt_eff P seg i (a_now s - si_timeSent i) s1) as (l2 & HE2 & Hn2 & Hl2).
  assert (HFs : Fl (set_segs (kdel seg (a_segs (sampleRtt P seg i (a_now s - si_timeSent i) s1)))
                      (sampleRtt P seg i (a_now s - si_timeSent i) s1))).
  { unfold sampleRtt. destruct (_ && _); [|exact HFd].
    eapply (fl_quiet (ORttSample seg (a_now s - si_timeSent i) (Z.max (Z.shiftr (a_nInFlight s1 + 1) 1) 1))
              (set_segs (kdel seg (a_segs s1)) s1)); try reflexivity. exact HFd. }
  set (s2 := sampleRtt P seg i (a_now s - si_timeSent i) s1) in *. clearbody s2.
  pose proof (eff_trans _ _ _ _ _ HE1 HE2) as HE.
  assert (HR2 : Running C (set_segs (kdel seg (a_segs s2)) s2)).
  { apply (running_deliver C seg i (l2 ++ l1) s s2); auto; [now rewrite dl_app, Hl1, Hl2|].
    rewrite Hn2. exact Hn1. }
  apply (always_kdel C seg) in HA2.
  set (s3 := set_segs (kdel seg (a_segs s2)) s2) in *.
  assert (Hs3 : stopping s3 = false).
  { change (stopping s2 = false). rewrite (E_stop _ _ _ HE). exact Hs1. }
  clearbody s3. apply fl_fi.
  destruct (b_allReceived (a_b s3)) eqn:Eall.
  - eapply (fl_stop s3) with (o := ODone); auto; cbn; [now rewrite cancel_tr|apply cancel_stop|apply HFs].
  - apply fl_schedule; auto. split; auto.
Qed.

(** ** All runs *)
Lemma fi_cancel s : FI s -> FI (cancel (emit OGotCancel s)).
Proof.
  intros [HA HR]. apply fl_fi. eapply (fl_stop s) with (o := OGotCancel); auto.
  - now rewrite cancel_tr.
  - apply cancel_stop.
Qed.

Lemma fi_fromFace seg k s :
  a_crashed s = false -> Live C s -> Fl s ->
  (forall s', a_crashed s' = false -> stopping s' = false -> kmem seg (a_segs s') = true ->
     Live C s' -> Fl s' -> FI (k s')) ->
  FI (fromFace seg k s).
Proof.
  intros Hc HL HF Hk. unfold fromFace.
  destruct (kget seg (a_segs s)) as [i|] eqn:Ei; [|now apply fl_fi].
  destruct (si_live i); [|now apply fl_fi].
  assert (Hs : stopping s = false).
  { destruct (stopping s) eqn:E; [|reflexivity]. destruct HL as [HA _].
    rewrite (A_stop _ _ HA E) in Ei. discriminate. }
  apply Hk; cbn; auto.
  - rewrite kmem_kset, N.eqb_refl. reflexivity.
  - eapply live_kset_info; eauto. cbn. intros Hq. destruct HL as [_ HR]. eapply (R_q _ _ (HR Hs)); eauto.
  - destruct HF as [HA HR]. split; [exact HA|]. intros _. destruct (HR Hs).
    assert (E : forall k, flk k (kset seg (SegInfo false (si_timeSent i) (si_rto i) (si_state i)) (a_segs s)) = flk k (a_segs s)).
    { intros k'. rewrite flk_kset. destruct (N.eqb_spec k' seg) as [->|]; [|reflexivity].
      unfold flk. now rewrite Ei. }
    constructor; cbn; auto.
    + intros k'. rewrite E. apply F_in0.
    + intros k' j. rewrite kget_kset. destruct (N.eqb k' seg); [|apply F_rto0].
      intros [= <-]. cbn. eauto.
Qed.

Lemma fi_step s e : Inv C s -> FI s -> FI (a_step P C s e).
Proof.
  intros HI HF. unfold a_step. destruct (a_crashed s) eqn:Hc; [exact HF|].
  pose proof (inv_live C _ Hc HI) as HL. pose proof (fi_fl _ Hc HF) as HF'.
  destruct e.
  - apply fi_fromFace; auto. intros. now apply fi_handleData.
  - apply fi_fromFace; auto. intros. now apply fl_fi, fl_handleNack.
  - apply fi_fromFace; auto. intros. now apply fl_fi, fl_handleExpire.
  - destruct (a_timer s); [|exact HF]. apply fl_fi, fl_checkRto; [exact Hc|now apply live_set_timer|].
    eapply (fl_same s); try reflexivity. exact HF'.
  - apply fl_fi. eapply (fl_same s); try reflexivity. exact HF'.
  - now apply fi_cancel.
Qed.

Lemma fl_init : Fl (a_init P).
Proof.
  split; [exact I|intros _]. constructor; cbn; auto.
  - intros k. split; [contradiction|discriminate].
  - lia.
  - discriminate.
Qed.

Lemma fi_run es : FI (a_run P C es).
Proof.
  assert (H : Inv C (a_run P C es) /\ FI (a_run P C es)); [|tauto].
  unfold a_run. apply fold_left_inv with (P := fun s => Inv C s /\ FI s).
  - intros s e [H1 H2]. split; [now apply inv_step|now apply fi_step].
  - unfold doRun. cbn [a_init a_b b_allReceived b_init b_nReceived].
    change (b_allReceived b_init) with false. cbn match.
    pose proof (live_set_timer C true _ (live_init C P)) as HL. split.
    + now apply live_inv, live_schedule.
    + apply fl_fi, fl_schedule; [exact HL|]. eapply (fl_same (a_init P)); try reflexivity. apply fl_init.
Qed.

End Flight.
