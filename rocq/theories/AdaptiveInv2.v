From Verif Require Import Base BaseFacts PipelineBase FetcherModel AdaptiveModel AdaptiveProofs AdaptiveInv.

Section Inv2.
Variable C : aconfig.
Context {W R : Type}.
Variable P : policy W R.
Notation st := (@astate W R).
Implicit Types s : st.
Notation r := (c_maxRetries C).
Notation hasFbi s := (b_hasFbi (a_b s)).
Notation last s := (b_last (a_b s)).
Notation stopping s := (b_stopping (a_b s)).
Notation Always := (Always C).
Notation Running := (Running C).
Notation Live := (Live C).

Ltac cnt := rewrite ?count_cons; cbn [is_lost is_to is_int is_retx is_skip is_marked is_dloss is_dmark].

Lemma stop_cause o t seg rs : is_retx o = false -> cause C t seg rs -> cause C (o :: t) seg rs.
Proof. intros H. apply cause_mono. destruct o; auto. destruct retx; auto; discriminate. Qed.

(** ** Loss events *)
Lemma live_recordTimeout seg s :
  (seg < nf (a_tr s))%N -> lostIn seg (a_tr s) -> Live s -> Live (recordTimeout P C seg s).
Proof.
  intros Hseg Hlo HL. unfold recordTimeout.
  destruct (c_disableCwa C || N.ltb (a_recPoint s) seg) eqn:E; [|exact HL].
  assert (HG : c_disableCwa C = true \/ (recp (a_tr s) < seg)%N).
  { apply orb_prop in E. destruct E as [E|E]; [now left|right].
    apply N.ltb_lt in E. destruct HL as [HA _]. now rewrite <- (A_rec _ _ HA). }
  unfold decreaseWindow. destruct HL as [HA HR]. split.
  - destruct HA; constructor; cbn; auto; try (cnt; lia).
    + rewrite A_known. destruct (hasFbi s); reflexivity.
    + split; [|auto]. split; [auto|]. split; [|auto].
      destruct Hlo as (o & Ho1 & Ho2). exists o. split; [now right|exact Ho2].
  - cbn. intros Hs. specialize (HR Hs). destruct HR; constructor; cbn; auto.
    intros H1 H2. destruct (R_fail H1 H2) as (HX & HY & HZ). split; auto. split; auto.
    now repeat apply stop_cause.
Qed.

Lemma live_kset_info seg i i' s :
  kget seg (a_segs s) = Some i -> si_timeSent i' = si_timeSent i ->
  (si_state i' = InRetxQueue -> In seg (a_retxq s)) ->
  Live s -> Live (set_segs (kset seg i' (a_segs s)) s).
Proof.
  intros Hk Ht Hst [HA HR].
  assert (Hm : kmem seg (a_segs s) = true) by (apply kmem_true; eauto).
  split.
  - destruct HA; constructor; cbn; auto. intros H. rewrite A_stop in Hk by auto. discriminate.
  - cbn. intros Hs. specialize (HR Hs). destruct HR; constructor; cbn; auto.
    + now apply nodup_keys_kset.
    + intros k. rewrite kmem_kset. destruct (N.eqb_spec k seg) as [->|]; cbn; auto.
    + intros k H. rewrite kmem_kset. rewrite (R_fresh k H).
      destruct (N.eqb_spec k seg) as [->|]; cbn; auto. rewrite R_fresh in Hm; auto.
    + intros k H. rewrite kmem_kset. specialize (R_cov k H). destruct (N.eqb k seg); cbn; tauto.
    + intros k H. rewrite kmem_kset. destruct (N.eqb_spec k seg) as [->|]; cbn; auto.
    + intros k j. rewrite kget_kset. destruct (N.eqb_spec k seg) as [->|]; eauto. intros [= <-]; auto.
    + rewrite length_kset, Hm. erewrite count_ext; [exact R_cnt|].
      intros k _. rewrite kmem_kset. destruct (N.eqb_spec k seg) as [->|]; cbn; congruence.
    + intros H1 H2. destruct (R_fail H1 H2) as (HX & HY & HZ). split; auto. split; auto.
      intros k. rewrite kmem_kset. destruct (N.eqb_spec k seg) as [->|]; cbn; auto.
    + intros k. rewrite kmem_kset. destruct (N.eqb_spec k seg) as [->|]; cbn; auto.
    + intros k j. rewrite kget_kset. destruct (N.eqb_spec k seg) as [->|]; eauto.
      intros [= <-]. rewrite Ht. eauto.
Qed.

Definition slack s : Prop :=
  a_nRetx s + a_nSkipped s + Z.of_nat (length (a_retxq s)) + 1 <= count is_lost (a_tr s).

Lemma live_push seg s :
  kmem seg (a_segs s) = true -> slack s -> Live s ->
  Live (set_retxq (a_retxq s ++ [seg]) (set_nInFlight (a_nInFlight s - 1) s)).
Proof.
  intros Hm Hsl [HA HR]. unfold slack in Hsl.
  destruct (stopping s) eqn:Es; [rewrite (A_stop _ _ HA Es) in Hm; discriminate|].
  specialize (HR eq_refl).
  assert (Hlt : (seg < nf (a_tr s))%N) by (apply (R_keys _ _ HR); auto).
  split.
  - destruct HA; constructor; cbn; auto.
    + intros k Hk. apply in_app_or in Hk. destruct Hk as [|[<-|[]]]; auto.
    + rewrite app_length. cbn. lia.
  - intros _. destruct HR; constructor; cbn; auto.
    + intros k i Hk Hi. apply in_or_app. left. eauto.
    + rewrite count_app, count_cons, Hm, count_nil. lia.
Qed.

Definition keep s s' : Prop :=
  a_crashed s' = a_crashed s /\ stopping s' = stopping s /\ a_timer s' = a_timer s /\
  nf (a_tr s') = nf (a_tr s) /\ a_now s' = a_now s /\ incl (a_tr s) (a_tr s').

Lemma live_enqueue seg s :
  kmem seg (a_segs s) = true -> slack s -> Live s ->
  Live (enqueueForRetransmission seg s) /\ keep s (enqueueForRetransmission seg s) /\
  (forall k, kmem k (a_segs (enqueueForRetransmission seg s)) = kmem k (a_segs s)).
Proof.
  intros Hm Hsl HL. unfold enqueueForRetransmission.
  set (s1 := if 0 <? a_nInFlight s then s else emit OAssert s).
  assert (H1 : Live s1 /\ a_segs s1 = a_segs s /\ keep s s1 /\ slack s1).
  { unfold s1, keep. destruct (0 <? a_nInFlight s); [pose proof (incl_refl (a_tr s)); tauto|].
    split; [apply live_neutral; cbn; auto|]. unfold slack in *. cbn. repeat split; auto. intros x Hx. now right. }
  clearbody s1. destruct H1 as (HL1 & E1 & (E2 & E3 & E4 & E5 & E6 & E7) & Hsl1).
  rewrite <- E1 in Hm |- *. clear E1.
  pose proof (live_push seg s1 Hm Hsl1 HL1) as HL2.
  pose proof Hm as Hm'. apply kmem_true in Hm'. destruct Hm' as [i Hi].
  cbn [set_retxq set_nInFlight a_segs a_retxq] in *. rewrite Hi.
  split; [|split].
  - apply (live_kset_info seg i (SegInfo (si_live i) (si_timeSent i) (si_rto i) InRetxQueue)) in HL2;
      [exact HL2|exact Hi|reflexivity|].
    intros _. cbn. apply in_or_app. right. now left.
  - unfold keep. cbn. auto 7.
  - intros k. cbn. rewrite kmem_kset. destruct (N.eqb_spec k seg) as [->|]; cbn; congruence.
Qed.

Lemma live_lost seg s :
  (seg < nf (a_tr s))%N ->
  Live s -> Live (emit (OGotNack seg NrCongestion) s) /\ slack (emit (OGotNack seg NrCongestion) s).
Proof.
  intros Hlt HL. split.
  - apply live_neutral; cbn; auto.
  - destruct HL as [HA _]. pose proof (A_lost _ _ HA). unfold slack. cbn. cnt. lia.
Qed.

Lemma live_timeout o s :
  match o with ORto k | OGotExpiry k => (k < nf (a_tr s))%N | _ => False end ->
  Live s -> Live (emit o (set_nTimeouts (a_nTimeouts s + 1) s)) /\
            slack (emit o (set_nTimeouts (a_nTimeouts s + 1) s)).
Proof.
  intros Ho [HA HR]. split; [split|].
  - destruct o; try contradiction; destruct HA; constructor; cbn; auto; try (cnt; lia);
     rewrite A_known; destruct (hasFbi s); reflexivity.
  - cbn. intros Hs. specialize (HR Hs). destruct HR; constructor; cbn; auto;
    destruct o; try contradiction; cbn; auto;
    intros H1 H2; destruct (R_fail H1 H2) as (HX & HY & HZ); split; auto; split; auto;
    now apply stop_cause.
  - pose proof (A_lost _ _ HA). unfold slack. cbn.
    destruct o; try contradiction; cnt; lia.
Qed.

Lemma live_checkRto1 s has high seg :
  Live s -> ((high < nf (a_tr s))%N /\ lostIn high (a_tr s) \/ has = false /\ high = 0%N) -> stopping s = false ->
  let '(s', has', high') := checkRto1 (s, has, high) seg in
  Live s' /\ ((high' < nf (a_tr s'))%N /\ lostIn high' (a_tr s') \/ has' = false /\ high' = 0%N) /\ keep s s'.
Proof.
  intros HL Hh Hs. unfold checkRto1.
  pose proof (incl_refl (a_tr s)) as Hrefl.
  destruct (kget seg (a_segs s)) as [i|] eqn:Ei; [|unfold keep; tauto].
  destruct (negb (state_eqb (si_state i) InRetxQueue) && (si_rto i <? a_now s - si_timeSent i));
    [|unfold keep; tauto].
  assert (Hm : kmem seg (a_segs s) = true) by (apply kmem_true; eauto).
  assert (Hlt : (seg < nf (a_tr s))%N).
  { destruct HL as [_ HR]. apply (R_keys _ _ (HR Hs)); auto. }
  destruct (live_timeout (ORto seg) s Hlt HL) as [HL1 Hsl].
  destruct (live_enqueue seg (emit (ORto seg) (set_nTimeouts (a_nTimeouts s + 1) s)) Hm Hsl HL1) as (HL2 & HK & _).
  set (s2 := enqueueForRetransmission _ _) in *. clearbody s2.
  split; [exact HL2|].
  unfold keep in *. cbn in HK. destruct HK as (K1 & K2 & K3 & K4 & K5 & K6).
  assert (K7 : incl (a_tr s) (a_tr s2)) by (intros x Hx; apply K6; now right).
  split; [|tauto]. left. rewrite K4. split; [lia|].
  assert (Hnew : lostIn seg (a_tr s2)).
  { exists (ORto seg). split; [apply K6; now left|]. cbn. apply N.eqb_refl. }
  destruct (N.max_spec high seg) as [[? ->]|[? ->]]; [exact Hnew|].
  destruct Hh as [[_ (o & Ho1 & Ho2)]|[_ ->]].
  - exists o. auto.
  - replace 0%N with seg by lia. exact Hnew.
Qed.

Lemma live_checkRto_fold l : forall s has high,
  Live s -> ((high < nf (a_tr s))%N /\ lostIn high (a_tr s) \/ has = false /\ high = 0%N) -> stopping s = false ->
  let '(s', has', high') := fold_left checkRto1 l (s, has, high) in
  Live s' /\ ((high' < nf (a_tr s'))%N /\ lostIn high' (a_tr s') \/ has' = false /\ high' = 0%N) /\ keep s s'.
Proof.
  induction l as [|seg l IH]; intros s has high HL Hh Hs; cbn [fold_left].
  - pose proof (incl_refl (a_tr s)). unfold keep; tauto.
  - pose proof (live_checkRto1 s has high seg HL Hh Hs) as H.
    destruct (checkRto1 (s, has, high) seg) as [[s1 has1] high1].
    destruct H as (HL1 & Hh1 & HK1).
    assert (Hs1 : stopping s1 = false) by (unfold keep in HK1; destruct HK1 as (_ & -> & _); auto).
    specialize (IH s1 has1 high1 HL1 Hh1 Hs1).
    destruct (fold_left checkRto1 l (s1, has1, high1)) as [[s2 has2] high2].
    destruct IH as (HL2 & Hh2 & HK2). split; [auto|]. split; [auto|].
    unfold keep in *. destruct HK1 as (?&?&?&?&?&?), HK2 as (?&?&?&?&?&?). repeat split; try congruence.
    eapply incl_tran; eauto.
Qed.

Lemma live_checkRto order s : Live s -> Live (checkRto P C order s).
Proof.
  intros HL. unfold checkRto, isStopping. destruct (stopping s) eqn:Hs; [exact HL|].
  pose proof (live_checkRto_fold (visit_order order (keys (a_segs s))) s false 0%N HL
                (or_intror (conj eq_refl eq_refl)) Hs) as H.
  destruct (fold_left checkRto1 _ _) as [[s1 has1] high1].
  destruct H as (HL1 & Hh1 & HK1).
  destruct (a_crashed s1); [exact HL1|]. apply live_set_timer.
  destruct has1; [|exact HL1]. destruct Hh1 as [[H1 H2]|[H _]]; [|discriminate].
  apply live_schedule, live_recordTimeout; auto.
Qed.

(** ** Handlers of network events *)
Definition Inv s : Prop :=
  Always s /\ (a_crashed s = false -> stopping s = false -> Running s).

Lemma live_inv s : Live s -> Inv s.
Proof. intros [HA HR]. split; auto. Qed.

Lemma inv_live s : a_crashed s = false -> Inv s -> Live s.
Proof. intros Hc [HA HR]. split; auto. Qed.

Lemma live_lostevent seg s :
  stopping s = false -> kmem seg (a_segs s) = true -> slack s -> lostIn seg (a_tr s) -> Live s ->
  Live (let s := enqueueForRetransmission seg s in
        if a_crashed s then s else schedulePackets P C (recordTimeout P C seg s)).
Proof.
  intros Hs Hm Hsl (o & Ho1 & Ho2) HL. destruct (live_enqueue seg s Hm Hsl HL) as (HL1 & HK & _).
  cbv zeta. set (s1 := enqueueForRetransmission seg s) in *. clearbody s1.
  destruct (a_crashed s1); [exact HL1|]. apply live_schedule, live_recordTimeout; [| |exact HL1];
  unfold keep in HK; destruct HK as (_ & _ & _ & E & _ & K).
  - rewrite E. destruct HL as [_ HR]. apply (R_keys _ _ (HR Hs)); auto.
  - exists o. auto.
Qed.

Lemma live_handleNack seg rr s :
  stopping s = false -> kmem seg (a_segs s) = true -> Live s ->
  Live (handleNack P C seg rr (emit (OGotNack seg rr) s)).
Proof.
  intros Hs Hm HL. unfold handleNack, isStopping. cbn [emit set_tr a_b]. rewrite Hs.
  assert (Hlt : (seg < nf (a_tr s))%N) by (destruct HL as [_ HR]; apply (R_keys _ _ (HR Hs)); auto).
  assert (HL1 : Live (emit (OGotNack seg rr) s)) by (apply live_neutral; cbn; auto).
  assert (HF : rr <> NrDuplicate -> rr <> NrCongestion ->
               Live (handleFail seg (RNack seg rr) (emit (OGotNack seg rr) s))).
  { intros H1 H2. destruct HL1 as [HA1 HR1]. specialize (HR1 Hs).
    pose proof (A_next _ _ HA1). destruct HR1.
    apply live_handleFail; cbn in *; auto; try tauto.
    eauto. }
  destruct rr; try (apply HF; discriminate).
  - apply live_lostevent; cbn; auto; [apply live_lost; cbn; auto|].
    eexists. split; [now left|]. apply N.eqb_refl.
  - exact HL1.
Qed.

Lemma live_handleExpire seg s :
  stopping s = false -> kmem seg (a_segs s) = true -> Live s ->
  Live (handleLifetimeExpiration P C seg (emit (OGotExpiry seg) s)).
Proof.
  intros Hs Hm HL. unfold handleLifetimeExpiration, isStopping. cbn [emit set_tr a_b]. rewrite Hs.
  assert (Hlt : (seg < nf (a_tr s))%N) by (destruct HL as [_ HR]; apply (R_keys _ _ (HR Hs)); auto).
  destruct (live_timeout (OGotExpiry seg) s Hlt HL) as [HL1 Hsl1].
  apply live_lostevent; cbn; auto.
  eexists. split; [now left|]. apply N.eqb_refl.
Qed.

Lemma inv_throw s : Always s -> Inv (throw s).
Proof.
  intros HA. split; [|cbn; discriminate]. unfold throw.
  apply always_neutral with (o := OThrow) in HA; cbn; auto.
  destruct HA; constructor; cbn in *; auto.
Qed.

(** FinalBlockId processing *)
Lemma always_gotdata seg d s :
  (hasFbi s = true \/ fbi_of d = None) -> (seg < nf (a_tr s))%N -> Always s -> Always (emit (OGotData seg d) s).
Proof.
  intros H Hlt []. constructor; cbn; auto; try (cnt; lia).
  rewrite A_known. destruct H as [->| ->]; [reflexivity|]. destruct (hasFbi s); reflexivity.
Qed.

Lemma running_gotdata seg d s : Running s -> Running (emit (OGotData seg d) s).
Proof.
  intros []. constructor; cbn; auto.
  intros H1 H2. destruct (R_fail H1 H2) as (HX & HY & HZ). split; auto. split; auto.
  now apply stop_cause.
Qed.

Lemma inv_learnFbi seg d s :
  stopping s = false -> a_crashed s = false -> (seg < nf (a_tr s))%N -> Live s ->
  let '(s', continue) := learnFbi d (emit (OGotData seg d) s) in
  Inv s' /\
  (continue = true -> stopping s' = false /\ a_crashed s' = false /\ In (OGotData seg d) (a_tr s') /\
                      a_timer s' = a_timer s) /\
  (continue = false -> a_crashed s' = true \/ stopping s' = true).
Proof.
  intros Hs Hc Hlt [HA HR]. specialize (HR Hs). unfold learnFbi. cbn [emit set_tr a_b].
  destruct (hasFbi s) eqn:Ef.
  - split; [|split; [|discriminate]].
    + apply live_inv. split; [apply always_gotdata; auto|intros _; now apply running_gotdata].
    + intros _. cbn. auto.
  - destruct (d_fbi d) as [|n|] eqn:Ed.
    + split; [|split; [|discriminate]].
      * apply live_inv. split; [apply always_gotdata; auto|intros _; now apply running_gotdata].
        right. unfold fbi_of. now rewrite Ed.
      * intros _. cbn. auto.
    + set (s1 := cancelGreater n _).
      destruct (cancelGreater_tr n (set_b (b_setFbi n (a_b s)) (emit (OGotData seg d) s))) as (l & Hl & El).
      change (a_tr (cancelGreater n _)) with (a_tr s1) in El. cbn [set_b emit set_tr a_tr] in El.
      destruct (abandons_trace C l (OGotData seg d :: a_tr s) Hl) as (J1 & J2 & _ & _ & _ & J6 & _ & _ & J9 & _).
      assert (N1 : nf (a_tr s1) = nf (a_tr s)) by (rewrite El, J1; reflexivity).
      assert (N2 : dl (a_tr s1) = dl (a_tr s)) by (rewrite El, J2; reflexivity).
      assert (N6 : forall k, cr k (a_tr s1) = cr k (a_tr s)) by (intros k; rewrite El, J6; reflexivity).
      assert (HA1 : Always s1).
      { apply always_cancelGreater. destruct HA. constructor; cbn; auto; try (cnt; lia).
        rewrite A_known, Ef. unfold fbi_of. now rewrite Ed. }
      change (a_hasFailure s1) with (a_hasFailure s). change (a_failedSeg s1) with (a_failedSeg s).
      change (a_failReason s1) with (a_failReason s).
      destruct (a_hasFailure s && N.leb (a_failedSeg s) n) eqn:EF.
      * apply andb_prop in EF. destruct EF as [EF1 EF2]. apply N.leb_le in EF2.
        destruct (R_fail _ _ HR Ef EF1) as (HX & HY & HZ).
        assert (HLf : Live (onFailure (a_failReason s) s1)).
        { apply live_onFailure; auto.
          apply (stop_cause (OGotData seg d)) in HY; [|reflexivity].
          pose proof (A_known _ _ HA1) as HK. cbn [s1 cancelGreater set_nInFlight set_segs set_b set_tr a_tr a_b b_setFbi b_hasFbi b_last] in HK.
          apply J9 in HY. rewrite <- El in HY.
          change (hasFbi s1) with true in HK. change (last s1) with n in HK.
          destruct (a_failReason s); cbn in HY; try contradiction;
            (destruct HY as [-> HY]; cbn [justF]; split; [cbn; tauto|]; exists n; auto). }
        split; [now apply live_inv|]. split; [discriminate|]. intros _. right.
        unfold onFailure, isStopping. change (stopping s1) with (stopping s). rewrite Hs.
        unfold cancel, isStopping. change (stopping s1) with (stopping s). rewrite Hs. reflexivity.
      * split; [|split; [|discriminate]].
        -- apply live_inv. split.
           { destruct HA1; constructor; cbn in *; auto. }
           intros _.
           assert (Hgt : a_hasFailure s = true -> (n < a_failedSeg s)%N).
           { intros H. rewrite H in EF. cbn in EF. now apply N.leb_gt in EF. }
           assert (Es1 : a_segs s1 = filter (fun e => negb (N.ltb n (fst e))) (a_segs s)) by reflexivity.
           pose proof (kmem_filter (fun k => negb (N.ltb n k))) as KF. cbn beta in KF.
           destruct HR. constructor; cbn [set_hasFailure a_segs a_tr a_b a_hasFailure a_failedSeg
                        a_failReason a_retxq a_nInFlight a_retxCount a_now].
           ++ rewrite Es1. now apply nodup_keys_filter with (p := fun k => negb (N.ltb n k)).
           ++ intros k. rewrite Es1, KF, N1. intros H. apply andb_prop in H. apply R_keys. tauto.
           ++ rewrite N1. cbn. destruct R_phase as [H|[[H _]|[_ H]]]; [now left|congruence|].
              right. left. split; auto. destruct (R_fail Ef H) as (HX & _ & _). specialize (Hgt H). lia.
           ++ intros k. rewrite N2. intros Hk. rewrite Es1, KF, (R_fresh k Hk). apply andb_false_r.
           ++ intros k. rewrite N1, N2. intros Hk. rewrite Es1, KF. cbn.
              destruct (N.ltb_spec n k) as [Hnk|Hnk]; [right; right; left; auto|].
              destruct (R_cov k Hk) as [H|[H|[[H _]|(_ & H & H')]]];
                [now left|right; left; now rewrite H|congruence|].
              specialize (Hgt H). lia.
           ++ intros k _. rewrite Es1, KF. cbn. destruct (N.ltb_spec n k); [discriminate|auto].
           ++ auto.
           ++ intros k i. rewrite Es1, (kget_filter (fun k => negb (N.ltb n k))).
              destruct (negb (N.ltb n k)); [|discriminate]. cbn. eauto.
           ++ rewrite Es1. cbn. rewrite cancelGreater_length.
              pose proof (count_filter_le (fun k => negb (N.ltb n k)) (a_segs s) (a_retxq s)).
              cbn beta in *. lia.
           ++ discriminate.
           ++ intros k. rewrite Es1, KF, N6. intros H. apply andb_prop in H. cbn. apply R_cr. tauto.
           ++ intros k i. rewrite Es1, (kget_filter (fun k => negb (N.ltb n k))).
              destruct (negb (N.ltb n k)); [|discriminate]. cbn. eauto.
        -- intros _. cbn [set_hasFailure a_b a_crashed a_tr a_timer]. rewrite El. cbn.
           repeat split; auto. apply in_or_app. right. now left.
    + split; [|split; [discriminate|cbn; auto]].
      apply inv_throw. apply always_gotdata; auto. right. unfold fbi_of. now rewrite Ed.
Qed.

(** Delivering a segment *)
Definition delivered seg d v s : st :=
  emit (ODeliver seg d)
    (let s' := adaptWindow P C seg d (set_nInFlight v (set_highData (N.max (a_highData s) seg) s)) in
     set_b (b_received d (a_b s')) s').

Lemma always_delivered seg d v s :
  Always s -> stopping s = false -> (seg < nf (a_tr s))%N -> ~ In seg (dl (a_tr s)) ->
  In (OGotData seg d) (a_tr s) -> Always (delivered seg d v s).
Proof.
  intros HA Hs Hlt Hnew Hgot.
  assert (Hend : ended (a_tr s) = false) by now rewrite (A_end _ _ HA).
  assert (Hhd : N.max (a_highData s) seg = 0%N \/ seg = N.max (a_highData s) seg \/
                In (N.max (a_highData s) seg) (dl (a_tr s))).
  { destruct (A_hd _ _ HA) as [E|E]; [rewrite E; right; left; lia|].
    destruct (N.max_spec (a_highData s) seg) as [[? ->]|[? ->]]; auto. }
  unfold delivered, adaptWindow, increaseWindow, decreaseWindow.
  destruct (d_mark d) eqn:Em; [destruct (negb (c_ignoreCongMarks C)) eqn:Ei|].
  - cbn [set_nCongMarks set_nInFlight set_highData a_recPoint a_highData].
    destruct (c_disableCwa C || N.ltb (a_recPoint s) (N.max (a_highData s) seg)) eqn:E.
    + destruct HA; constructor; cbn; auto;
        try (cnt; rewrite ?Em; lia);
        try (rewrite A_known; destruct (hasFbi s); reflexivity); try lia.
      * intros k [<-|Hk]; auto.
      * split; [tauto|]. split; [exact I|]. split; [|exact A_ok]. split; [exact Hlt|]. split; [exact Hnew|]. split; [eauto|].
        apply orb_prop in E. destruct E as [E|E]; [now left|right].
        apply N.ltb_lt in E. rewrite A_rec in E.
        exists (N.max (a_highData s) seg). split; [|exact E].
        destruct Hhd as [H|H]; [rewrite H in E; lia|exact H].
    + destruct HA; constructor; cbn; auto;
        try (cnt; rewrite ?Em; lia);
        try (rewrite A_known; destruct (hasFbi s); reflexivity); try lia.
      intros k [<-|Hk]; auto.
  - destruct HA; constructor; cbn; auto;
        try (cnt; rewrite ?Em; lia);
        try (rewrite A_known; destruct (hasFbi s); reflexivity); try lia.
      + intros k [<-|Hk]; auto.
      + tauto.
  - destruct HA; constructor; cbn; auto;
        try (cnt; rewrite ?Em; lia);
        try (rewrite A_known; destruct (hasFbi s); reflexivity); try lia.
      + intros k [<-|Hk]; auto.
      + tauto.
Qed.

Record eff s (l : list pobs) s' : Prop := {
  E_tr : a_tr s' = l ++ a_tr s;
  E_neutral : forall o, In o l -> match o with OWindow _ | ODecrMark _ | ODeliver _ _ | ORttSample _ _ _ => True | _ => False end;
  E_segs : a_segs s' = a_segs s;
  E_q : a_retxq s' = a_retxq s;
  E_rc : a_retxCount s' = a_retxCount s;
  E_f1 : a_hasFailure s' = a_hasFailure s;
  E_f2 : a_failedSeg s' = a_failedSeg s;
  E_f3 : a_failReason s' = a_failReason s;
  E_now : a_now s' = a_now s;
  E_timer : a_timer s' = a_timer s;
  E_crash : a_crashed s' = a_crashed s;
  E_fbi : hasFbi s' = hasFbi s;
  E_last : last s' = last s;
  E_next : b_next (a_b s') = b_next (a_b s);
  E_stop : stopping s' = stopping s
}.

Lemma eff_delivered seg d v s :
  exists l, eff s l (delivered seg d v s) /\ a_nInFlight (delivered seg d v s) = v /\
            dl l = [seg].
Proof.
  unfold delivered, adaptWindow, increaseWindow, decreaseWindow.
  destruct (d_mark d); [destruct (negb (c_ignoreCongMarks C))|].
  - cbn [set_nCongMarks set_nInFlight set_highData a_recPoint a_highData].
    destruct (c_disableCwa C || N.ltb (a_recPoint s) (N.max (a_highData s) seg)).
    + eexists [_; _; _]. split; [constructor; cbn; try reflexivity; intros o [<-|[<-|[<-|[]]]]; exact I|split; reflexivity].
    + eexists [_]. split; [constructor; cbn; try reflexivity; intros o [<-|[]]; exact I|split; reflexivity].
  - eexists [_; _]. split; [constructor; cbn; try reflexivity; intros o [<-|[<-|[]]]; exact I|split; reflexivity].
  - eexists [_; _]. split; [constructor; cbn; try reflexivity; intros o [<-|[<-|[]]]; exact I|split; reflexivity].
Qed.

Lemma eff_trace l t :
  (forall o, In o l -> match o with OWindow _ | ODecrMark _ | ODeliver _ _ | ORttSample _ _ _ => True | _ => False end) ->
  nf (l ++ t) = nf t /\ dl (l ++ t) = dl l ++ dl t /\ (forall k, cr k (l ++ t) = cr k t) /\
  (forall seg rs, cause C t seg rs -> cause C (l ++ t) seg rs).
Proof.
  induction l as [|o l IH]; intros H; cbn [app].
  - repeat split; auto.
  - destruct IH as (I1 & I2 & I3 & I4); [intros; apply H; now right|].
    specialize (H o (or_introl eq_refl)).
    destruct o; try contradiction; cbn; rewrite ?I2; repeat split; auto;
      intros; apply stop_cause; auto.
Qed.

Lemma sampleRtt_eff seg i rtt s :
  exists l, eff s l (sampleRtt P seg i rtt s) /\
            a_nInFlight (sampleRtt P seg i rtt s) = a_nInFlight s /\ dl l = [].
Proof.
  unfold sampleRtt. destruct (_ && _).
  - eexists [_]. split; [constructor; cbn; try reflexivity; intros o [<-|[]]; exact I|split; reflexivity].
  - exists []. split; [constructor; cbn; try reflexivity; contradiction|split; reflexivity].
Qed.

Lemma always_sampleRtt seg i rtt s : 0 <= rtt -> Always s -> Always (sampleRtt P seg i rtt s).
Proof.
  intros Hr HA. unfold sampleRtt.
  destruct (_ && negb (kmem seg (a_retxCount s))) eqn:E; [|exact HA].
  apply andb_prop in E. destruct E as [_ E]. apply negb_true_iff in E.
  apply always_neutral with (o := ORttSample seg rtt (Z.max (Z.shiftr (a_nInFlight s + 1) 1) 1)) in HA.
  - destruct HA; constructor; cbn in *; auto.
  - reflexivity.
  - cbn. repeat split; [exact Hr|lia|]. pose proof (A_cr _ _ HA seg) as H.
    unfold kmem in E. destruct (kget seg (a_retxCount s)); [discriminate|exact H].
Qed.

(** removing a delivered segment *)
Lemma running_deliver seg i l s s' :
  Running s -> kget seg (a_segs s) = Some i ->
  eff s l s' -> dl l = [seg] ->
  a_nInFlight s' = (if state_eqb (si_state i) InRetxQueue then a_nInFlight s else a_nInFlight s - 1) ->
  Running (set_segs (kdel seg (a_segs s')) s').
Proof.
  intros HR Hi HE Hl Hn. destruct HE.
  assert (Hm : kmem seg (a_segs s) = true) by (apply kmem_true; eauto).
  destruct (eff_trace l (a_tr s) E_neutral0) as (T1 & T2 & T3 & T4).
  destruct HR. constructor; cbn;
    rewrite ?E_tr0, ?E_segs0, ?E_q0, ?E_rc0, ?E_f4, ?E_f5, ?E_f6, ?E_now0, ?E_fbi0, ?E_last0, ?E_next0, ?T1, ?T2, ?Hl, ?Hn;
    auto.
  - now apply nodup_keys_kdel.
  - intros k. rewrite kmem_kdel. intros H. apply andb_prop in H. apply R_keys. tauto.
  - intros k [<-|Hk]; rewrite kmem_kdel; [now rewrite N.eqb_refl|].
    rewrite R_fresh by auto. apply andb_false_r.
  - intros k Hk. rewrite kmem_kdel. destruct (N.eqb_spec k seg) as [->|]; [left; now left|].
    cbn. destruct (R_cov k Hk) as [H|[H|[H|H]]]; auto.
  - intros k Hf. rewrite kmem_kdel. intros H. apply andb_prop in H. apply R_last; tauto.
  - intros k j. rewrite kget_kdel. destruct (N.eqb_spec k seg); [discriminate|]. eauto.
  - pose proof (length_kdel seg (a_segs s) R_nd Hm).
    destruct (si_state i) eqn:Est; cbn.
    1,3: pose proof (count_kdel_le' seg (a_segs s) (a_retxq s)); lia.
    pose proof (count_kdel_le seg (a_segs s) (a_retxq s) (R_q _ _ Hi Est) Hm). lia.
  - intros H1 H2. destruct (R_fail H1 H2) as (HX & HY & HZ). split; auto. split; auto.
    intros k. rewrite kmem_kdel. intros H. apply andb_prop in H. apply HZ; tauto.
  - intros k. rewrite kmem_kdel, T3. intros H. apply andb_prop in H. apply R_cr. tauto.
  - intros k j. rewrite kget_kdel. destruct (N.eqb_spec k seg); [discriminate|]. eauto.
Qed.

Lemma eff_trans s1 l1 s2 l2 s3 : eff s1 l1 s2 -> eff s2 l2 s3 -> eff s1 (l2 ++ l1) s3.
Proof.
  intros [] []. constructor; try congruence.
  - rewrite E_tr1, E_tr0. now rewrite app_assoc.
  - intros o H. apply in_app_or in H. destruct H; [exact (E_neutral1 o H)|exact (E_neutral0 o H)].
Qed.

Lemma dl_app l1 l2 : dl (l1 ++ l2) = dl l1 ++ dl l2.
Proof. induction l1 as [|o l IH]; cbn; [reflexivity|]. destruct o; cbn; rewrite ?IH; reflexivity. Qed.

Lemma inv_handleData seg d s :
  stopping s = false -> a_crashed s = false -> kmem seg (a_segs s) = true -> Live s ->
  Inv (handleData P C seg d (emit (OGotData seg d) s)).
Proof.
  intros Hs Hc Hmm HL. unfold handleData, isStopping. cbn [emit set_tr a_b]. rewrite Hs.
  assert (Hl0 : (seg < nf (a_tr s))%N) by (destruct HL as [_ HR]; apply (R_keys _ _ (HR Hs)); auto).
  pose proof (inv_learnFbi seg d s Hs Hc Hl0 HL) as H. clear Hmm Hl0.
  cbn [emit] in H. destruct (learnFbi d _) as [s1 cont].
  destruct H as (HI & Hcont & _). destruct cont; [|exact HI]. cbn [negb].
  destruct (Hcont eq_refl) as (Hs1 & Hc1 & Hgot & _). clear Hcont.
  apply inv_live in HI; [|exact Hc1]. clear s Hs Hc HL. rename s1 into s.
  destruct (kget seg (a_segs s)) as [i|] eqn:Ei; [|now apply live_inv].
  set (v := if state_eqb (si_state i) InRetxQueue then a_nInFlight s else a_nInFlight s - 1).
  destruct HI as [HA HR]. specialize (HR Hs1).
  assert (Hm : kmem seg (a_segs s) = true) by (apply kmem_true; eauto).
  assert (Hlt : (seg < nf (a_tr s))%N) by (apply (R_keys _ _ HR); auto).
  assert (Hnew : ~ In seg (dl (a_tr s))).
  { intros H. apply (R_fresh _ _ HR) in H. congruence. }
  pose proof (always_delivered seg d v s HA Hs1 Hlt Hnew Hgot) as HA1.
  destruct (eff_delivered seg d v s) as (l1 & HE1 & Hn1 & Hl1).
  cbn [set_highData a_nInFlight].
  replace (if state_eqb (si_state i) InRetxQueue
           then set_highData (N.max (a_highData s) seg) s
           else set_nInFlight (a_nInFlight s - 1) (set_highData (N.max (a_highData s) seg) s))
    with (set_nInFlight v (set_highData (N.max (a_highData s) seg) s))
    by (unfold v; destruct (state_eqb (si_state i) InRetxQueue); destruct s; reflexivity).
  unfold onData.
  change (emit (ODeliver seg d) _) with (delivered seg d v s).
  set (s1 := delivered seg d v s) in *. clearbody s1.
  destruct (c_cbThrows C d).
  { cbn [throw set_crashed a_crashed]. now apply inv_throw. }
  rewrite (E_crash _ _ _ HE1), Hc1.
  assert (Hr : 0 <= a_now s - si_timeSent i) by (pose proof (R_time _ _ HR _ _ Ei); lia).
  pose proof (always_sampleRtt seg i _ s1 Hr HA1) as HA2.
  destruct (sampleRtt_eff seg i (a_now s - si_timeSent i) s1) as (l2 & HE2 & Hn2 & Hl2).
  set (s2 := sampleRtt P seg i (a_now s - si_timeSent i) s1) in *. clearbody s2.
  pose proof (eff_trans _ _ _ _ _ HE1 HE2) as HE.
  assert (HR2 : Running (set_segs (kdel seg (a_segs s2)) s2)).
  { apply (running_deliver seg i (l2 ++ l1) s s2); auto; [now rewrite dl_app, Hl1, Hl2|].
    rewrite Hn2. exact Hn1. }
  apply (always_kdel C seg) in HA2.
  set (s3 := set_segs (kdel seg (a_segs s2)) s2) in *.
  assert (Hs3 : stopping s3 = false).
  { change (stopping s2 = false). rewrite (E_stop _ _ _ HE). exact Hs1. }
  clearbody s3.
  destruct (b_allReceived (a_b s3)) eqn:Eall.
  - apply live_inv, live_stop; cbn; auto.
    split; [rewrite (A_end _ _ HA2); exact Hs3|].
    unfold b_allReceived in Eall. apply andb_prop in Eall. destruct Eall as [Eall E3].
    apply andb_prop in Eall. destruct Eall as [E1 E2].
    exists (last s3). rewrite (A_known _ _ HA2), E2. split; [reflexivity|].
    rewrite (A_recv _ _ HA2) in E3. lia.
  - apply live_inv, live_schedule. split; auto.
Qed.

(** ** All runs *)
Lemma inv_cancel s : Inv s -> Inv (cancel (emit OGotCancel s)).
Proof.
  intros [HA HR]. replace (cancel (emit OGotCancel s)) with (emit OGotCancel (cancel s))
    by (unfold cancel, isStopping; cbn; destruct (stopping s); reflexivity).
  apply live_inv, live_stop; cbn; auto.
Qed.

Lemma inv_fromFace seg k s :
  a_crashed s = false -> Live s ->
  (forall s', a_crashed s' = false -> stopping s' = false -> kmem seg (a_segs s') = true -> Live s' -> Inv (k s')) ->
  Inv (fromFace seg k s).
Proof.
  intros Hc HL Hk. unfold fromFace.
  destruct (kget seg (a_segs s)) as [i|] eqn:Ei; [|now apply live_inv].
  destruct (si_live i); [|now apply live_inv].
  assert (Hs : stopping s = false).
  { destruct (stopping s) eqn:E; [|reflexivity]. destruct HL as [HA _].
    rewrite (A_stop _ _ HA E) in Ei. discriminate. }
  apply Hk; cbn; auto.
  - rewrite kmem_kset, N.eqb_refl. reflexivity.
  - eapply live_kset_info; eauto. cbn. intros Hq. destruct HL as [_ HR]. eapply (R_q _ _ (HR Hs)); eauto.
Qed.

Lemma inv_step s e : Inv s -> Inv (a_step P C s e).
Proof.
  intros HI. unfold a_step. destruct (a_crashed s) eqn:Hc; [exact HI|].
  pose proof (inv_live _ Hc HI) as HL.
  destruct e.
  - apply inv_fromFace; auto. intros. now apply inv_handleData.
  - apply inv_fromFace; auto. intros. now apply live_inv, live_handleNack.
  - apply inv_fromFace; auto. intros. now apply live_inv, live_handleExpire.
  - destruct (a_timer s); [|exact HI]. now apply live_inv, live_checkRto, live_set_timer.
  - apply live_inv, live_set_now; auto. lia.
  - now apply inv_cancel.
Qed.

Lemma live_init : Live (a_init P).
Proof.
  split; [|intros _]; constructor; cbn; try (now left); try (intros; lia); try contradiction; try discriminate; auto.
Qed.

Lemma inv_run es : Inv (a_run P C es).
Proof.
  unfold a_run. apply fold_left_inv.
  - intros. now apply inv_step.
  - unfold doRun. cbn [a_init a_b b_allReceived b_init b_nReceived].
    apply live_inv. change (b_allReceived b_init) with false. cbn match.
    apply live_schedule, live_set_timer, live_init.
Qed.

End Inv2.
