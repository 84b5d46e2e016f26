From Verif Require Import Base BaseFacts PipelineBase FetcherModel AdaptiveModel AdaptiveProofs.

Section Inv.
Variable C : aconfig.
Context {W R : Type}.
Variable P : policy W R.
Notation st := (@astate W R).
Implicit Types s : st.
Notation r := (c_maxRetries C).
Notation hasFbi s := (b_hasFbi (a_b s)).
Notation last s := (b_last (a_b s)).
Notation stopping s := (b_stopping (a_b s)).
Notation Always := (Always C).
Notation Running := (Running C).
Notation Live := (Live C).

Ltac cnt := rewrite ?count_cons; cbn [is_lost is_to is_int is_retx is_skip is_marked is_dloss is_dmark].

(** ** Events and members that matter to nothing *)
Definition neutral (o : pobs) : bool :=
  match o with OAssert | OWindow _ | ORttSample _ _ _ | OGotNack _ _ | OThrow | OAbandon _ => true | _ => false end.

Lemma cause_cons t seg rs o : neutral o = true -> cause C t seg rs -> cause C (o :: t) seg rs.
Proof.
  intros Hn. unfold cause, maxed. destruct rs; cbn; try tauto.
  destruct o; try discriminate; tauto.
Qed.

Lemma always_neutral o s : neutral o = true -> G C (a_tr s) o -> Always s -> Always (emit o s).
Proof.
  intros Hn HG [].
  destruct o; try discriminate; constructor; cbn; auto; try (cnt; lia);
    try (rewrite A_known; destruct (hasFbi s); reflexivity).
  all: match goal with |- context[is_lost (OGotNack _ ?x)] => destruct x | |- context[OGotNack _ ?x] => destruct x end; cnt; lia.
Qed.

Lemma running_neutral o s : neutral o = true -> Running s -> Running (emit o s).
Proof.
  intros Hn [].
  destruct o; try discriminate; constructor; cbn; auto;
    intros; destruct R_fail as (HA & HB & HC); auto; split; auto; split; auto;
      now apply cause_cons.
Qed.

Lemma live_neutral o s : neutral o = true -> G C (a_tr s) o -> Live s -> Live (emit o s).
Proof.
  intros Hn HG [HA HR]. split; [now apply always_neutral|].
  cbn. intros Hs. apply running_neutral; auto.
Qed.

Ltac frame := intros [HA HR]; split; [destruct HA; constructor; cbn; auto | cbn; intros Hs; specialize (HR Hs); destruct HR; constructor; cbn; auto].

Lemma live_set_rtt v s : Live s -> Live (set_rtt v s). Proof. frame. Qed.
Lemma live_set_cwnd v s : Live s -> Live (set_cwnd v s). Proof. frame. Qed.
Lemma live_set_timer v s : Live s -> Live (set_timer v s). Proof. frame. Qed.
Lemma live_set_now v s : a_now s <= v -> Live s -> Live (set_now v s).
Proof. intros Hv. frame. intros k i Hk. specialize (R_time k i Hk). lia. Qed.

(** ** Stopping *)
Lemma always_cancel_emit o s :
  match o with OFail _ | ODone | OGotCancel => True | _ => False end ->
  G C (a_tr s) o ->
  Always s -> Always (emit o (cancel s)).
Proof.
  intros Ho HG HA. pose proof (A_stop _ _ HA) as Hst. unfold cancel, isStopping.
  destruct (stopping s) eqn:Es; destruct HA;
  destruct o; try contradiction; constructor; cbn; auto; try (cnt; lia);
    try (rewrite A_known; destruct (hasFbi s); reflexivity);
    try congruence.
Qed.

Lemma live_stop o s :
  match o with OFail _ | ODone | OGotCancel => True | _ => False end ->
  G C (a_tr s) o ->
  Always s -> Live (emit o (cancel s)).
Proof.
  intros Ho HG HA. split; [now apply always_cancel_emit|].
  intros H. exfalso. pose proof (A_end _ _ (always_cancel_emit _ _ Ho HG HA)) as E.
  rewrite H in E. destruct o; try contradiction; discriminate.
Qed.

Lemma live_onFailure rs s :
  stopping s = false -> Always s -> justF C (a_tr s) rs -> Live (onFailure rs s).
Proof.
  intros Hs HA HJ. unfold onFailure, isStopping. rewrite Hs.
  apply live_stop; [exact I| |exact HA]. cbn. split; [|exact HJ].
  rewrite (A_end _ _ HA). exact Hs.
Qed.

(** ** Forgetting tracked segments *)
Definition gone s (n : N) := length (filter (fun e => N.ltb n (fst e)) (a_segs s)).

Lemma count_filter_le (p : N -> bool) {A} (m : list (N * A)) q :
  count (fun x => kmem x (filter (fun e => p (fst e)) m)) q <= count (fun x => kmem x m) q.
Proof. apply count_le. intros y _. rewrite kmem_filter. now destruct (p y), (kmem y m). Qed.

Lemma cancelGreater_length (n : N) {A} (m : list (N * A)) :
  (Z.of_nat (length (filter (fun e => negb (N.ltb n (fst e))) m)) =
   Z.of_nat (length m) - Z.of_nat (length (filter (fun e => N.ltb n (fst e)) m))).
Proof. rewrite (length_filter_split (fun e : N * A => N.ltb n (fst e)) m). lia. Qed.

Definition abandons (l : list pobs) : Prop := forall o, In o l -> exists k, o = OAbandon k.

Lemma abandons_gone (l : list (N * seginfo)) : abandons (map (fun e => OAbandon (fst e)) l).
Proof. intros o H. apply in_map_iff in H. destruct H as (e & <- & _). eauto. Qed.

Lemma abandons_trace l t :
  abandons l ->
  nf (l ++ t) = nf t /\ dl (l ++ t) = dl t /\ dsize (l ++ t) = dsize t /\ known (l ++ t) = known t /\
  ended (l ++ t) = ended t /\ (forall k, cr k (l ++ t) = cr k t) /\ recp (l ++ t) = recp t /\
  (tr_ok C t -> tr_ok C (l ++ t)) /\ (forall k rs, cause C t k rs -> cause C (l ++ t) k rs) /\
  count is_int (l ++ t) = count is_int t /\ count is_retx (l ++ t) = count is_retx t /\
  count is_to (l ++ t) = count is_to t /\ count is_skip (l ++ t) = count is_skip t /\
  count is_marked (l ++ t) = count is_marked t /\ count is_dloss (l ++ t) = count is_dloss t /\
  count is_dmark (l ++ t) = count is_dmark t /\ count is_lost (l ++ t) = count is_lost t.
Proof.
  induction l as [|o l IH]; intros H; [cbn; tauto|].
  destruct IH as (I1 & I2 & I3 & I4 & I5 & I6 & I7 & I8 & I9 & I10 & I11 & I12 & I13 & I14 & I15 & I16 & I17);
    [intros x Hx; apply H; now right|].
  destruct (H o (or_introl eq_refl)) as [k ->]. cbn [app].
  rewrite !count_cons. cbn [nf dl dsize known ended cr recp tr_ok G is_lost is_to is_int is_retx is_skip is_marked is_dloss is_dmark].
  rewrite I4. repeat split; auto; try lia.
  - destruct (known t); reflexivity.
  - intros k' rs Hc. apply cause_cons; auto.
Qed.

Lemma cancelGreater_tr n s : exists l, abandons l /\ a_tr (cancelGreater n s) = l ++ a_tr s.
Proof. eexists. split; [apply abandons_gone|reflexivity]. Qed.

Lemma always_cancelGreater n s : Always s -> Always (cancelGreater n s).
Proof.
  intros HA. destruct (cancelGreater_tr n s) as (l & Hl & El).
  destruct (abandons_trace l (a_tr s) Hl)
    as (I1 & I2 & I3 & I4 & I5 & I6 & I7 & I8 & I9 & I10 & I11 & I12 & I13 & I14 & I15 & I16 & I17).
  destruct HA; constructor; rewrite ?El, ?I1, ?I2, ?I3, ?I4, ?I5, ?I7, ?I10, ?I11, ?I12, ?I13, ?I14, ?I15, ?I16, ?I17; auto.
  - intros k. rewrite I6. apply A_cr.
  - intros k. rewrite I6. apply A_crmax.
  - cbn. intros H. now rewrite A_stop.
Qed.

Lemma always_kdel k s : Always s -> Always (set_segs (kdel k (a_segs s)) s).
Proof. intros []. constructor; cbn; auto. intros H. now rewrite A_stop. Qed.

Lemma always_set_nInFlight v s : Always s -> Always (set_nInFlight v s).
Proof. intros []. constructor; cbn; auto. Qed.

Lemma always_failure b k rs s :
  Always s -> Always (set_failReason rs (set_failedSeg k (set_hasFailure b s))).
Proof. intros []. constructor; cbn; auto. Qed.

(** handleFail, called when segment [seg] is tracked; the counter has one unit of slack
    when the segment was just taken from the queue *)
Lemma live_handleFail seg rs s :
  stopping s = false -> Always s ->
  NoDup (keys (a_segs s)) ->
  (forall k, kmem k (a_segs s) = true -> (k < nf (a_tr s))%N) ->
  (nf (a_tr s) = b_next (a_b s) \/ (hasFbi s = true /\ (last s < nf (a_tr s))%N) \/
   (hasFbi s = false /\ a_hasFailure s = true)) ->
  (forall k, In k (dl (a_tr s)) -> kmem k (a_segs s) = false) ->
  (forall k, (k < nf (a_tr s))%N ->
             In k (dl (a_tr s)) \/ kmem k (a_segs s) = true \/
             (hasFbi s = true /\ (last s < k)%N) \/
             (hasFbi s = false /\ a_hasFailure s = true /\ (a_failedSeg s <= k)%N)) ->
  (forall k, hasFbi s = true -> kmem k (a_segs s) = true -> (k <= last s)%N) ->
  (forall k i, k <> seg -> kget k (a_segs s) = Some i -> si_state i = InRetxQueue -> In k (a_retxq s)) ->
  a_nInFlight s + count (fun k => kmem k (a_segs s)) (a_retxq s) <= Z.of_nat (length (a_segs s)) ->
  (hasFbi s = false -> a_hasFailure s = true ->
     (forall k, kmem k (a_segs s) = true -> (k < a_failedSeg s)%N)) ->
  (forall k, k <> seg -> kmem k (a_segs s) = true ->
             cr k (a_tr s) = match kget k (a_retxCount s) with None => 0 | Some m => m end) ->
  (forall k i, kget k (a_segs s) = Some i -> si_timeSent i <= a_now s) ->
  kmem seg (a_segs s) = true -> cause C (a_tr s) seg rs ->
  Live (handleFail seg rs s).
Proof.
  intros Hs HA Hnd Hkeys Hphase Hfresh Hcov Hlast Hq Hcnt Hfk Hcr Htime Hmem Hcause.
  unfold handleFail, isStopping. rewrite Hs.
  pose proof (A_known _ _ HA) as Hknown.
  destruct (hasFbi s) eqn:Ef; cbn [andb negb].
  - (* known final segment *)
    specialize (Hlast seg eq_refl Hmem).
    rewrite (proj2 (N.leb_le _ _) Hlast).
    apply live_onFailure; auto.
    destruct rs; cbn in Hcause |- *; try contradiction;
      (destruct Hcause as [-> Hcause]; split; [tauto|]; exists (last s); auto).
  - assert (HA' : Always (set_nInFlight (a_nInFlight s - 1) (set_segs (kdel seg (a_segs s)) (emit (OAbandon seg) s)))).
    { apply always_set_nInFlight, (always_kdel seg (emit (OAbandon seg) s)), always_neutral; cbn; auto. }
    cbn [emit set_tr a_segs a_nInFlight set_segs set_nInFlight] in *.
    set (s1 := set_nInFlight _ _) in *.
    change (a_segs s1) with (kdel seg (a_segs s)).
    destruct (kdel seg (a_segs s)) as [|e l] eqn:Ekd.
    + apply live_onFailure; auto. cbn. rewrite Hknown. split; [reflexivity|].
      exists seg, rs. now apply cause_cons.
    + split; [now apply always_failure, always_cancelGreater|]. intros _.
      assert (Hseg : (seg < nf (a_tr s))%N) by auto.
      set (s2 := cancelGreater seg s1).
      assert (Es2 : a_segs s2 = filter (fun e => negb (N.ltb seg (fst e))) (kdel seg (a_segs s))) by (rewrite Ekd; reflexivity).
      assert (En2 : a_nInFlight s2 = a_nInFlight s - 1 - Z.of_nat (length (filter (fun e => N.ltb seg (fst e)) (kdel seg (a_segs s))))) by (rewrite Ekd; reflexivity).
      destruct (cancelGreater_tr seg s1) as (l2 & Hl2 & El2). fold s2 in El2.
      change (a_tr s1) with (OAbandon seg :: a_tr s) in El2.
      destruct (abandons_trace l2 (OAbandon seg :: a_tr s) Hl2) as (I1 & I2 & _ & _ & _ & I6 & _ & _ & I9 & _).
      rewrite <- El2 in I1, I2, I6, I9. cbn [nf dl cr] in I1, I2, I6.
      assert (Hm2 : forall k, kmem k (a_segs s2) = true -> (k < seg)%N /\ kmem k (a_segs s) = true).
      { intros k. rewrite Es2, (kmem_filter (fun k => negb (N.ltb seg k))), kmem_kdel.
        destruct (N.ltb_spec seg k), (N.eqb_spec k seg); cbn; try discriminate. intros; split; [lia|auto]. }
      constructor; cbn [set_failReason set_failedSeg set_hasFailure a_segs a_tr a_b a_hasFailure a_failedSeg
                        a_failReason a_retxq a_nInFlight a_retxCount a_now]; fold s2.
      * rewrite Es2. apply nodup_keys_filter with (p := fun k => negb (N.ltb seg k)). now apply nodup_keys_kdel.
      * intros k Hk. apply Hm2 in Hk. rewrite I1. apply Hkeys. tauto.
      * right. right. cbn. auto.
      * intros k Hk. destruct (kmem k (a_segs s2)) eqn:E; [|reflexivity].
        apply Hm2 in E. destruct E as [_ E]. rewrite I2 in Hk. rewrite Hfresh in E; auto.
      * intros k Hk. change (hasFbi s2) with (hasFbi s). rewrite I1 in Hk. rewrite I2.
        destruct (N.leb_spec seg k) as [Hle|Hgt]; [right; right; right; auto|].
        destruct (Hcov k Hk) as [H|[H|[[H _]|(_ & H & H')]]]; [now left| |congruence|].
        -- right. left. rewrite Es2, (kmem_filter (fun k => negb (N.ltb seg k))), kmem_kdel, H.
           destruct (N.ltb_spec seg k), (N.eqb_spec k seg); cbn; lia || reflexivity.
        -- exfalso. assert (seg < a_failedSeg s)%N by auto. lia.
      * intros k H. change (hasFbi s2) with (hasFbi s) in H. congruence.
      * intros H. change (hasFbi s2) with (hasFbi s) in H. congruence.
      * intros k i. rewrite Es2, (kget_filter (fun k => negb (N.ltb seg k))), kget_kdel.
        destruct (negb (N.ltb seg k)); [|discriminate]. destruct (N.eqb_spec k seg); [discriminate|].
        intros. change (a_retxq s2) with (a_retxq s). eauto.
      * rewrite Es2, En2, cancelGreater_length. change (a_retxq s2) with (a_retxq s).
        pose proof (length_kdel seg (a_segs s) Hnd Hmem).
        pose proof (count_kdel_le' seg (a_segs s) (a_retxq s)).
        pose proof (count_filter_le (fun k => negb (N.ltb seg k)) (kdel seg (a_segs s)) (a_retxq s)).
        cbn beta in *. lia.
      * intros _ _. rewrite I1. split; [exact Hseg|]. split; [apply I9, cause_cons; auto|].
        intros k Hk. apply Hm2 in Hk. tauto.
      * intros k Hk. apply Hm2 in Hk. rewrite I6.
        change (a_retxCount s2) with (a_retxCount s). apply Hcr; [lia|tauto].
      * intros k i. rewrite Es2, (kget_filter (fun k => negb (N.ltb seg k))), kget_kdel.
        destruct (negb (N.ltb seg k)); [|discriminate]. destruct (N.eqb_spec k seg); [discriminate|].
        intros. change (a_now s2) with (a_now s). eauto.
Qed.

Lemma cause_mono o t seg rs :
  (match o with OInterest _ true => False | _ => True end) ->
  cause C t seg rs -> cause C (o :: t) seg rs.
Proof.
  intros Ho. unfold cause, maxed. destruct rs; cbn; try tauto.
  destruct o; try tauto. destruct retx; tauto.
Qed.

Lemma live_skip seg q s :
  kmem seg (a_segs s) = false ->
  Live (set_retxq (seg :: q) s) ->
  Live (set_retxq q (emit (OSkip seg) (set_nSkipped (a_nSkipped s + 1) s))).
Proof.
  intros Hm [HA HR]. split.
  - destruct HA. constructor; cbn in *; auto; try (cnt; lia); try (rewrite A_known; destruct (hasFbi s); reflexivity).
  - cbn in *. intros Hs. specialize (HR Hs). destruct HR; constructor; cbn in *; auto.
    + intros k i Hk Hi. destruct (R_q k i Hk Hi) as [->|H]; [|exact H].
      unfold kmem in Hm. rewrite Hk in Hm. discriminate.
    + revert R_cnt. rewrite count_cons, Hm. lia.
    + intros H1 H2. destruct (R_fail H1 H2) as (HX & HY & HZ). split; auto. split; auto.
      now apply cause_mono.
Qed.

Definition same_core s s' : Prop :=
  a_b s' = a_b s /\ a_segs s' = a_segs s /\ a_nInFlight s' = a_nInFlight s /\
  a_cwnd s' = a_cwnd s /\ a_crashed s' = a_crashed s /\ a_timer s' = a_timer s.

Lemma live_dropSkipped q : forall s,
  Live (set_retxq q s) ->
  Live (dropSkipped q s) /\ same_core s (dropSkipped q s) /\
  (forall k l, a_retxq (dropSkipped q s) = k :: l -> kmem k (a_segs s) = true).
Proof.
  induction q as [|k q IH]; intros s HL; cbn.
  - split; [exact HL|]. split; [repeat split|]. cbn. discriminate.
  - destruct (kmem k (a_segs s)) eqn:E.
    + split; [exact HL|]. split; [repeat split|]. cbn. intros k' l' [= <- <-]. exact E.
    + apply live_skip in HL; [|exact E].
      destruct (IH _ HL) as (H1 & H2 & H3). split; [exact H1|]. split; [|exact H3].
      destruct H2 as (?&?&?&?&?&?). repeat split; assumption.
Qed.

(** Sending an Interest for a tracked segment again *)
Lemma live_express_retx seg s :
  stopping s = false -> Always s ->
  (cr seg (a_tr s) + 1 <= Z.max 1 r \/ r = -1) ->
  (hasFbi s = true -> (seg <= last s)%N) ->
  kmem seg (a_segs s) = true ->
  kget seg (a_retxCount s) = Some (cr seg (a_tr s) + 1) ->
  a_nRetx s + a_nSkipped s + Z.of_nat (length (a_retxq s)) + 1 <= count is_lost (a_tr s) ->
  NoDup (keys (a_segs s)) ->
  (forall k, kmem k (a_segs s) = true -> (k < nf (a_tr s))%N) ->
  (nf (a_tr s) = b_next (a_b s) \/ (hasFbi s = true /\ (last s < nf (a_tr s))%N) \/
   (hasFbi s = false /\ a_hasFailure s = true)) ->
  (forall k, In k (dl (a_tr s)) -> kmem k (a_segs s) = false) ->
  (forall k, (k < nf (a_tr s))%N ->
             In k (dl (a_tr s)) \/ kmem k (a_segs s) = true \/
             (hasFbi s = true /\ (last s < k)%N) \/
             (hasFbi s = false /\ a_hasFailure s = true /\ (a_failedSeg s <= k)%N)) ->
  (forall k, hasFbi s = true -> kmem k (a_segs s) = true -> (k <= last s)%N) ->
  (hasFbi s = true -> a_hasFailure s = false) ->
  (forall k i, k <> seg -> kget k (a_segs s) = Some i -> si_state i = InRetxQueue -> In k (a_retxq s)) ->
  a_nInFlight s + 1 + count (fun k => kmem k (a_segs s)) (a_retxq s) <= Z.of_nat (length (a_segs s)) ->
  (hasFbi s = false -> a_hasFailure s = true ->
     (a_failedSeg s < nf (a_tr s))%N /\ cause C (a_tr s) (a_failedSeg s) (a_failReason s) /\
     (forall k, kmem k (a_segs s) = true -> (k < a_failedSeg s)%N)) ->
  (forall k, k <> seg -> kmem k (a_segs s) = true ->
             cr k (a_tr s) = match kget k (a_retxCount s) with None => 0 | Some m => m end) ->
  (forall k i, kget k (a_segs s) = Some i -> si_timeSent i <= a_now s) ->
  Live (express P seg true s).
Proof.
  intros Hs HA Hmax Hfin Hmem Hrc Hlost Hnd Hkeys Hphase Hfresh Hcov Hlast Hff Hq Hcnt Hfail Hcr Htime.
  assert (Hfr : ~ In seg (dl (a_tr s))).
  { intros H. apply Hfresh in H. congruence. }
  assert (Hlt : (seg < nf (a_tr s))%N) by auto.
  assert (Hcrpos : 0 <= cr seg (a_tr s)).
  { clear. generalize (a_tr s). intros t. induction t as [|o t IH]; cbn; [lia|].
    destruct o; auto. destruct retx; [|exact IH]. destruct (N.eqb seg0 seg); lia. }
  assert (HG : G C (a_tr s) (OInterest seg true)).
  { cbn. split; [now rewrite (A_end _ _ HA)|]. split.
    - intros n. rewrite (A_known _ _ HA). destruct (hasFbi s); [|discriminate]. intros [= <-]. auto.
    - split; [exact Hlt|]. split; [exact Hfr|]. lia. }
  split.
  - destruct HA. constructor; cbn; auto; try (cnt; lia).
    + rewrite A_known. destruct (hasFbi s); reflexivity.
    + intros k. specialize (A_cr k). destruct (N.eqb_spec seg k) as [->|Hne].
      * rewrite Hrc in A_cr |- *. lia.
      * replace (0 + cr k (a_tr s)) with (cr k (a_tr s)) by lia. exact A_cr.
    + intros k Hr. specialize (A_crmax k Hr). destruct (N.eqb_spec seg k) as [->|Hne]; lia.
  - intros _. constructor; cbn.
    + now apply nodup_keys_kset.
    + intros k. rewrite kmem_kset. destruct (N.eqb_spec k seg) as [->|]; cbn; auto.
    + exact Hphase.
    + intros k Hk. rewrite kmem_kset, Hfresh by auto. destruct (N.eqb_spec k seg) as [->|]; cbn; tauto.
    + intros k Hk. specialize (Hcov k Hk). rewrite kmem_kset. destruct (N.eqb k seg); cbn; tauto.
    + intros k H. rewrite kmem_kset. destruct (N.eqb_spec k seg) as [->|]; cbn; auto.
    + exact Hff.
    + intros k i. rewrite kget_kset. destruct (N.eqb_spec k seg) as [->|]; [|eauto].
      intros [= <-]. cbn. discriminate.
    + rewrite length_kset, Hmem.
      erewrite count_ext; [apply Hcnt || (revert Hcnt; lia)|].
      intros k _. rewrite kmem_kset. destruct (N.eqb_spec k seg) as [->|]; cbn; congruence.
    + intros H1 H2. destruct (Hfail H1 H2) as (HX & HY & HZ). split; auto. split.
      * assert (seg < a_failedSeg s)%N by auto. revert HY. unfold cause, maxed. destruct (a_failReason s); cbn; try tauto.
        destruct (N.eqb_spec seg (a_failedSeg s)); [lia|].
        replace (0 + cr (a_failedSeg s) (a_tr s)) with (cr (a_failedSeg s) (a_tr s)) by lia. tauto.
      * intros k. rewrite kmem_kset. destruct (N.eqb_spec k seg) as [->|]; cbn; auto.
    + intros k. rewrite kmem_kset. destruct (N.eqb_spec k seg) as [->|Hne]; cbn.
      * intros _. rewrite N.eqb_refl, Hrc. lia.
      * intros H. destruct (N.eqb_spec seg k); [congruence|]. rewrite <- Hcr by auto. lia.
    + intros k i. rewrite kget_kset. destruct (N.eqb_spec k seg) as [->|]; [|eauto].
      intros [= <-]. cbn. lia.
Qed.

(** Sending the first Interest for the next segment *)
Lemma cr_bound_zero s seg : Always s -> nf (a_tr s) = seg -> cr seg (a_tr s) = 0.
Proof.
  intros HA <-. pose proof (A_ok _ _ HA) as Hok. clear HA.
  assert (H : forall t m, tr_ok C t -> (nf t <= m)%N -> cr m t = 0).
  { induction t as [|o t IH]; intros m; cbn; [reflexivity|]. intros [HG Hok'] Hm.
    destruct o; auto. destruct retx; cbn in *.
    - destruct HG as (_ & _ & Hlt & _). destruct (N.eqb_spec seg m); [lia|].
      rewrite IH; auto.
    - apply IH; auto. lia. }
  apply H; auto. lia.
Qed.

Lemma live_express_first seg s :
  stopping s = false -> Always s ->
  nf (a_tr s) = seg -> b_next (a_b s) = (seg + 1)%N ->
  (hasFbi s = true -> (seg <= last s)%N) ->
  a_hasFailure s = false ->
  NoDup (keys (a_segs s)) ->
  (forall k, kmem k (a_segs s) = true -> (k < nf (a_tr s))%N) ->
  (forall k, In k (dl (a_tr s)) -> kmem k (a_segs s) = false) ->
  (forall k, (k < nf (a_tr s))%N ->
             In k (dl (a_tr s)) \/ kmem k (a_segs s) = true \/
             (hasFbi s = true /\ (last s < k)%N) \/
             (hasFbi s = false /\ a_hasFailure s = true /\ (a_failedSeg s <= k)%N)) ->
  (forall k, hasFbi s = true -> kmem k (a_segs s) = true -> (k <= last s)%N) ->
  (forall k i, kget k (a_segs s) = Some i -> si_state i = InRetxQueue -> In k (a_retxq s)) ->
  a_nInFlight s + count (fun k => kmem k (a_segs s)) (a_retxq s) <= Z.of_nat (length (a_segs s)) ->
  (forall k, kmem k (a_segs s) = true ->
             cr k (a_tr s) = match kget k (a_retxCount s) with None => 0 | Some m => m end) ->
  (forall k i, kget k (a_segs s) = Some i -> si_timeSent i <= a_now s) ->
  Live (express P seg false s).
Proof.
  intros Hs HA Hnf Hnext Hfin Hnofail Hnd Hkeys Hfresh Hcov Hlast Hq Hcnt Hcr Htime.
  assert (Hnew : kmem seg (a_segs s) = false).
  { destruct (kmem seg (a_segs s)) eqn:E; [|reflexivity]. apply Hkeys in E. lia. }
  assert (Hcr0 := cr_bound_zero s seg HA Hnf).
  assert (Hnq : ~ In seg (a_retxq s)).
  { intros H. apply (A_q _ _ HA) in H. lia. }
  assert (HG : G C (a_tr s) (OInterest seg false)).
  { cbn. split; [now rewrite (A_end _ _ HA)|]. split.
    - intros n. rewrite (A_known _ _ HA). destruct (hasFbi s); [|discriminate]. intros [= <-]. auto.
    - auto. }
  assert (Hsegc : kget seg (a_retxCount s) = None).
  { pose proof (A_cr _ _ HA seg) as E. destruct (kget seg (a_retxCount s)) as [m|] eqn:Em; [|reflexivity].
    lia. }
  split.
  - destruct HA. constructor; cbn; auto; try (cnt; lia); try lia.
    + intros k Hk. specialize (A_dl k Hk). lia.
    + rewrite A_known. destruct (hasFbi s); reflexivity.
    + intros k Hk. specialize (A_q k Hk). lia.
    + intros k. specialize (A_cr k). destruct (kget k (a_retxCount s)); lia.
  - intros _. constructor; cbn.
    + now apply nodup_keys_kset.
    + intros k. rewrite kmem_kset. destruct (N.eqb_spec k seg) as [->|]; cbn; [lia|].
      intros H. apply Hkeys in H. lia.
    + left. lia.
    + intros k Hk. rewrite kmem_kset, Hfresh by auto.
      destruct (N.eqb_spec k seg) as [->|]; cbn; [|reflexivity].
      apply (A_dl _ _ HA) in Hk. lia.
    + intros k Hk. rewrite kmem_kset. destruct (N.eqb_spec k seg) as [->|]; cbn; [tauto|].
      apply Hcov. lia.
    + intros k H. rewrite kmem_kset. destruct (N.eqb_spec k seg) as [->|]; cbn; auto.
    + auto.
    + intros k i. rewrite kget_kset. destruct (N.eqb_spec k seg) as [->|]; [|eauto].
      intros [= <-]. cbn. discriminate.
    + rewrite length_kset, Hnew.
      erewrite count_ext; [revert Hcnt; instantiate (1 := fun k => kmem k (a_segs s)); lia|].
      intros k Hk. rewrite kmem_kset. destruct (N.eqb_spec k seg) as [->|]; cbn; [contradiction|reflexivity].
    + congruence.
    + intros k. rewrite kmem_kset. destruct (N.eqb_spec k seg) as [->|Hne]; cbn; auto.
      intros _. rewrite Hsegc. exact Hcr0.
    + intros k i. rewrite kget_kset. destruct (N.eqb_spec k seg) as [->|]; [|eauto].
      intros [= <-]. cbn. lia.
Qed.

Lemma always_pop seg q s :
  a_retxq s = seg :: q -> Always s -> Always (set_retxq q s).
Proof.
  intros E []. constructor; cbn; auto.
  - intros k Hk. apply A_q. rewrite E. now right.
  - rewrite E in A_lost. cbn [length] in A_lost. lia.
Qed.

Lemma always_retxCount seg m s :
  1 <= m -> cr seg (a_tr s) <= m -> (seg < nf (a_tr s))%N ->
  Always s -> Always (set_retxCount (kset seg m (a_retxCount s)) s).
Proof.
  intros H1 H2 H3 []. constructor; cbn; auto.
  intros k. specialize (A_cr k). rewrite kget_kset.
  destruct (N.eqb_spec k seg) as [->|]; auto.
Qed.

Lemma always_setnext s n :
  (b_next (a_b s) <= n)%N -> Always s ->
  Always (set_b (PBase (hasFbi s) (last s) (b_nReceived (a_b s)) (b_recvSize (a_b s)) n (stopping s)) s).
Proof. intros Hn []. constructor; cbn; auto. lia. Qed.

Lemma live_sendOne s : Live s -> Live (sendOne P C s).
Proof.
  intros HL. unfold sendOne.
  assert (HL' : Live (set_retxq (a_retxq s) s)) by (destruct s; exact HL).
  destruct (live_dropSkipped _ _ HL') as (HL1 & (Eb & Es & _) & Hhd).
  set (s1 := dropSkipped (a_retxq s) s) in *. rewrite <- Es in Hhd. clearbody s1. clear s HL HL' Eb Es.
  destruct HL1 as [HA HR].
  destruct (a_retxq s1) as [|seg q] eqn:Eq.
  - (* first-time Interest *)
    cbn [b_getNext]. unfold sendInterest, isStopping. cbn [set_b a_b b_stopping b_hasFbi b_last b_next a_hasFailure negb andb].
    assert (HA' : Always (set_b (PBase (hasFbi s1) (last s1) (b_nReceived (a_b s1)) (b_recvSize (a_b s1))
                                (b_next (a_b s1) + 1)%N (stopping s1)) s1)).
    { apply always_setnext; [lia|exact HA]. }
    destruct (stopping s1) eqn:Est.
    { split; [exact HA'|]. cbn. intros E. discriminate. }
    specialize (HR eq_refl). pose proof (A_next _ _ HA) as Hnx. destruct HR.
    destruct (hasFbi s1) eqn:Ef; cbn [andb].
    + destruct (N.ltb_spec (last s1) (b_next (a_b s1))) as [Hlt|Hge].
      * split; [exact HA'|]. cbn. intros _. constructor; cbn; auto.
        right. left. split; auto.
        destruct R_phase as [->|[[_ H]|[H _]]]; [exact Hlt|exact H|discriminate].
      * rewrite R_fbif by auto.
        assert (Hnf : nf (a_tr s1) = b_next (a_b s1)).
        { destruct R_phase as [H|[[_ H]|[H _]]]; [exact H| |discriminate].
          lia. }
        apply live_express_first; cbn; auto; try (now rewrite R_fbif).
    + destruct (a_hasFailure s1) eqn:Eh.
      * split; [exact HA'|]. cbn. intros _. constructor; cbn; rewrite ?Eh; auto.
      * assert (Hnf : nf (a_tr s1) = b_next (a_b s1)).
        { destruct R_phase as [H|[[H _]|[_ H]]]; [exact H|discriminate|discriminate]. }
        apply live_express_first; cbn; auto; try discriminate.
        intros k Hk. specialize (R_cov k Hk). rewrite Eh. exact R_cov.
  - (* retransmission *)
    specialize (Hhd _ _ eq_refl).
    destruct (stopping s1) eqn:Est.
    { exfalso. rewrite (A_stop _ _ HA Est) in Hhd. discriminate. }
    specialize (HR eq_refl). pose proof (A_next _ _ HA) as Hnx.
    assert (HA1 := always_pop _ _ _ Eq HA).
    pose proof (A_lost _ _ HA) as Hlost. rewrite Eq in Hlost. cbn [length] in Hlost.
    destruct HR. rewrite Eq in *. rewrite count_cons, Hhd in R_cnt.
    assert (Hseg : (seg < nf (a_tr s1))%N) by auto.
    assert (Hq' : forall k i, k <> seg -> kget k (a_segs s1) = Some i ->
                   si_state i = InRetxQueue -> In k q).
    { intros k i Hne Hk Hi. destruct (R_q k i Hk Hi); [congruence|assumption]. }
    unfold sendInterest, isStopping. cbn [set_retxq a_b b_stopping]. rewrite Est.
    assert (Hfin : hasFbi s1 && N.ltb (last s1) seg = false).
    { destruct (hasFbi s1) eqn:Ef; [|reflexivity]. specialize (R_last seg eq_refl Hhd).
      cbn. apply N.ltb_ge. exact R_last. }
    rewrite Hfin. cbn [negb andb].
    pose proof (R_cr seg Hhd) as Hc. pose proof (A_cr _ _ HA seg) as Hc'.
    change (a_retxCount (set_retxq q s1)) with (a_retxCount s1).
    destruct (kget seg (a_retxCount s1)) as [m|] eqn:Em.
    + cbn [set_retxCount a_b]. destruct Hc' as (Hm1 & _ & _).
      assert (HA2 : Always (set_retxCount (kset seg (m + 1) (a_retxCount s1)) (set_retxq q s1))).
      { apply (always_retxCount seg _ (set_retxq q s1)); cbn; auto; lia. }
      assert (Hcr' : forall k, k <> seg -> kmem k (a_segs s1) = true ->
         cr k (a_tr s1) = match kget k (kset seg (m + 1) (a_retxCount s1)) with None => 0 | Some m => m end).
      { intros k Hne Hk. rewrite kget_kset_other by auto. auto. }
      destruct (negb (Z.eqb r MAX_RETRIES_INFINITE) && (r <? m + 1)) eqn:Emax.
      * apply andb_prop in Emax. destruct Emax as [E1 E2].
        apply negb_true_iff, Z.eqb_neq in E1. unfold MAX_RETRIES_INFINITE in E1. apply Z.ltb_lt in E2.
        pose proof (A_crmax _ _ HA seg E1).
        apply live_handleFail; cbn; auto; try lia.
        -- intros HF1 HF2. apply R_fail; auto.
        -- split; [reflexivity|]. split; [exact E1|]. lia.
      * apply live_express_retx; cbn; auto; try lia.
        -- destruct (Z.eq_dec r (-1)); [now right|left].
           apply andb_false_iff in Emax. destruct Emax as [E|E].
           ++ apply negb_false_iff, Z.eqb_eq in E. contradiction.
           ++ apply Z.ltb_ge in E. lia.
        -- rewrite kget_kset_same. f_equal. lia.
    + assert (HA2 : Always (set_retxCount (kset seg 1 (a_retxCount s1)) (set_retxq q s1))).
      { apply (always_retxCount seg _ (set_retxq q s1)); cbn; auto; lia. }
      apply live_express_retx; cbn; auto; try lia.
      -- rewrite kget_kset_same. f_equal. lia.
      -- intros k Hne Hk. rewrite kget_kset_other by auto. auto.
Qed.

Lemma live_iter n : forall s, Live s -> Live (iter n (sendOne P C) s).
Proof. induction n; cbn; auto. intros s HL. apply IHn, live_sendOne, HL. Qed.

Lemma live_schedule s : Live s -> Live (schedulePackets P C s).
Proof.
  intros HL. unfold schedulePackets. apply live_iter.
  destruct (a_nInFlight s <? 0); [|exact HL]. apply live_neutral; cbn; auto.
Qed.

End Inv.
