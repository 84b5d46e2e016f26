From Verif Require Import Base BaseFacts PipelineBase PipelineSpec AdaptiveModel AdaptiveProofs AdaptiveInv AdaptiveInv2 AdaptiveTheorems AdaptiveProgress.
From Verif Require Import ConsumerModel CatchunksModel CatchunksSpec CatchunksProofs ExitModel ExitProofs.

Section Adaptive.
Context {W R : Type}.
Variable P : policy W R.
Variable C : aconfig.
Hypothesis Hcb : c_cbThrows C = d_appnack.
Notation st := (@astate W R).
Notation stopping s := (b_stopping (a_b s)).

(** a part of a handler that neither throws, cancels nor completes *)
Definition q (s s' : st) : Prop :=
  calm (a_tr s) (a_tr s') /\ a_crashed s' = a_crashed s /\
  (stopping s = true -> stopping s' = true /\ a_timer s' = a_timer s /\ (a_segs s = [] -> a_segs s' = [])) /\
  (stopping s = false -> stopping s' = false /\ a_timer s' = a_timer s \/
                         stopping s' = true /\ existsb is_failure (a_tr s') = true).

Lemma calm_failure t t' : calm t t' -> existsb is_failure t = true -> existsb is_failure t' = true.
Proof. intros (l & -> & _) H. rewrite existsb_app, H. apply orb_true_r. Qed.
Lemma q_refl s : q s s.
Proof. split; [apply calm_refl|]. split; [reflexivity|]. split; [auto|]. left. auto. Qed.
Lemma q_trans a b c : q a b -> q b c -> q a c.
Proof.
  intros (C1 & K1 & S1 & N1) (C2 & K2 & S2 & N2). split; [eapply calm_trans; eauto|]. split; [congruence|]. split.
  - intros H. destruct (S1 H) as (H1 & H2 & H3). destruct (S2 H1) as (H4 & H5 & H6). split; [exact H4|]. split; [congruence|auto].
  - intros H. destruct (N1 H) as [[H1 H2]|[H1 H2]].
    + destruct (N2 H1) as [[H3 H4]|H3]; [left; split; [exact H3|congruence]|right; exact H3].
    + right. destruct (S2 H1) as (H3 & _). split; [exact H3|]. eapply calm_failure; eauto.
Qed.
Lemma q_same s s' : a_tr s' = a_tr s -> stopping s' = stopping s -> a_timer s' = a_timer s -> a_crashed s' = a_crashed s ->
  (stopping s = true -> a_segs s = [] -> a_segs s' = []) -> q s s'.
Proof.
  intros E1 E2 E3 E4 E5. split; [rewrite E1; apply calm_refl|]. split; [exact E4|]. split.
  - intros H. rewrite E2, E3. repeat split; auto.
  - intros H. left. rewrite E2, E3. auto.
Qed.
Lemma q_emit o s s' : a_tr s' = o :: a_tr s -> plain o = true -> stopping s' = stopping s -> a_timer s' = a_timer s ->
  a_crashed s' = a_crashed s -> (stopping s = true -> a_segs s = [] -> a_segs s' = []) -> q s s'.
Proof.
  intros E1 Ho E2 E3 E4 E5. split; [rewrite E1; now apply calm_cons|]. split; [exact E4|]. split.
  - intros H. rewrite E2, E3. repeat split; auto.
  - intros H. left. rewrite E2, E3. auto.
Qed.
Ltac qe := first [reflexivity|intros _ HH; exact HH].
Ltac qs := first [apply q_refl|solve [apply q_same; qe]|solve [eapply q_emit; qe]].

Lemma q_onFailure rs s : q s (onFailure rs s).
Proof.
  unfold onFailure, isStopping. destruct (stopping s) eqn:E; [apply q_refl|].
  unfold cancel, isStopping. rewrite E. split; [now apply calm_cons|]. split; [reflexivity|]. split; [congruence|].
  intros _. right. cbn. auto.
Qed.
Lemma q_cancelGreater n s : q s (cancelGreater n s).
Proof.
  split; [|split; [reflexivity|split; [|intros H; left; cbn; auto]]].
  - unfold cancelGreater. cbn. apply calm_abandon. apply Forall_forall. intros o Ho. apply in_map_iff in Ho.
    destruct Ho as (e & <- & _). reflexivity.
  - intros H. cbn. repeat split; auto. intros ->. reflexivity.
Qed.
Lemma q_handleFail seg rs s : q s (handleFail seg rs s).
Proof.
  unfold handleFail, isStopping. destruct (stopping s) eqn:Es; [apply q_refl|]. destruct (b_hasFbi (a_b s) && _); [apply q_onFailure|].
  destruct (negb _); [|apply q_refl]. cbv zeta.
  set (s1 := set_nInFlight _ (set_segs _ _)).
  assert (H0 : q s s1) by (eapply q_emit; try reflexivity; congruence). clearbody s1.
  destruct (a_segs s1) eqn:E; (eapply q_trans; [exact H0|]); [apply q_onFailure|].
  eapply q_trans; [apply (q_cancelGreater seg)|]. qs.
Qed.
Lemma q_express seg retx s : stopping s = false -> q s (express P seg retx s).
Proof. intros H. unfold express. destruct retx; (eapply q_emit; try reflexivity; congruence). Qed.
Lemma q_sendInterest seg retx s : q s (sendInterest P C seg retx s).
Proof.
  unfold sendInterest, isStopping. destruct (stopping s) eqn:Es; [apply q_refl|]. destruct (_ && _); [apply q_refl|].
  destruct (_ && _); [apply q_refl|]. destruct retx; [|now apply q_express].
  destruct (kget seg (a_retxCount s)); cbv zeta; [destruct (_ && _)|].
  - eapply q_trans; [|apply q_handleFail]. qs.
  - eapply q_trans; [|apply q_express; exact Es]. qs.
  - eapply q_trans; [|apply q_express; exact Es]. qs.
Qed.
Lemma q_dropSkipped l : forall s, q s (dropSkipped l s).
Proof.
  induction l as [|seg l IH]; intros s; cbn; [qs|]. destruct (kmem seg (a_segs s)); [qs|].
  eapply q_trans; [|apply IH]. qs.
Qed.
Lemma q_sendOne s : q s (sendOne P C s).
Proof.
  unfold sendOne. eapply q_trans; [apply (q_dropSkipped (a_retxq s))|]. set (s1 := dropSkipped _ s). clearbody s1. cbv zeta.
  destruct (a_retxq s1) as [|seg l].
  - unfold b_getNext. destruct (b_getNext (a_b s1)) as [seg b] eqn:E. unfold b_getNext in E. injection E as <- <-.
    eapply q_trans; [|apply q_sendInterest]. qs.
  - eapply q_trans; [|apply q_sendInterest]. qs.
Qed.
Lemma q_iter n : forall s, q s (iter n (sendOne P C) s).
Proof. induction n as [|n IH]; intros s; cbn; [apply q_refl|]. eapply q_trans; [apply q_sendOne|apply IH]. Qed.
Lemma q_schedule s : q s (schedulePackets P C s).
Proof.
  unfold schedulePackets. cbv zeta. destruct (a_nInFlight s <? 0); [eapply q_trans; [|apply q_iter]; qs|apply q_iter].
Qed.
Lemma q_recordTimeout seg s : q s (recordTimeout P C seg s).
Proof.
  unfold recordTimeout. destruct (_ || _); [|apply q_refl]. cbv zeta. unfold decreaseWindow.
  eapply q_trans; [|eapply (q_emit (ODecrLoss seg)); qe].
  eapply (q_emit (OWindow _)); qe.
Qed.
Lemma q_enqueue seg s : kmem seg (a_segs s) = true -> q s (enqueueForRetransmission seg s).
Proof.
  intros H. apply kmem_true in H. destruct H as [i Hi]. unfold enqueueForRetransmission. cbv zeta.
  destruct (0 <? a_nInFlight s); cbn [emit set_tr set_nInFlight set_retxq a_segs]; rewrite Hi.
  - apply q_same; try reflexivity. intros _ H. rewrite H in Hi. discriminate.
  - eapply q_emit; try reflexivity. intros _ H. rewrite H in Hi. discriminate.
Qed.
Lemma q_checkRto1 s has high seg : q s (fst (fst (checkRto1 (s, has, high) seg))).
Proof.
  unfold checkRto1. destruct (kget seg (a_segs s)) as [i|] eqn:E; [|apply q_refl]. destruct (_ && _); [|apply q_refl]. cbn [fst].
  eapply q_trans; [|apply q_enqueue].
  - eapply q_emit; qe.
  - cbn. apply kmem_true. eauto.
Qed.
Lemma q_fold l : forall acc, q (fst (fst acc)) (fst (fst (fold_left checkRto1 l acc))).
Proof.
  induction l as [|k l IH]; intros acc; [apply q_refl|]. cbn [fold_left].
  destruct acc as [[s has] high]. eapply q_trans; [apply (q_checkRto1 s has high k)|apply IH].
Qed.
Lemma q_adapt seg d s : q s (adaptWindow P C seg d s).
Proof.
  unfold adaptWindow, increaseWindow, decreaseWindow. cbv zeta. destruct (d_mark d); [|qs].
  destruct (negb _); [|eapply (q_emit (OWindow _)); qe].
  destruct (_ || _); [|qs].
  eapply q_trans; [eapply (q_emit (ODecrMark seg) s (emit (ODecrMark seg) s)); qe|].
  eapply (q_emit (OWindow _)); qe.
Qed.
Lemma q_sample seg i rtt s : q s (sampleRtt P seg i rtt s).
Proof. unfold sampleRtt. destruct (_ && _); [|apply q_refl]. eapply q_emit; qe. Qed.

(** ** between events; [b]: the pipeline may have been cancelled *)
Variable b : Prop.
Definition J (s : st) : Prop :=
  throws_ok (a_tr s) /\
  (a_crashed s = false -> ~ In OThrow (a_tr s)) /\
  (stopping s = true -> existsb is_failure (a_tr s) = true \/ (a_timer s = false /\ a_segs s = [])) /\
  (stopping s = false -> a_crashed s = false -> a_timer s = true) /\
  (In OGotCancel (a_tr s) -> b).
Definition NT (s : st) : Prop := ~ In OThrow (a_tr s) /\ a_crashed s = false /\ (In OGotCancel (a_tr s) -> b).

Lemma J_q s s' : q s s' -> NT s -> stopping s = false -> a_timer s = true -> J s'.
Proof.
  intros (C1 & K1 & S1 & N1) (Hn & Hc & Hb) Hs Ht.
  assert (Hn' : ~ In OThrow (a_tr s')) by (intros H; apply Hn, (calm_in OThrow _ _ C1 eq_refl H)).
  split; [intros H; contradiction|]. split; [auto|]. split; [|split].
  - destruct (N1 Hs) as [[H1 H2]|[H1 H2]]; [congruence|auto].
  - destruct (N1 Hs) as [[H1 H2]|[H1 H2]]; congruence.
  - intros H. apply Hb, (calm_in OGotCancel _ _ C1 eq_refl H).
Qed.
Lemma N_q s s' : q s s' -> NT s -> NT s'.
Proof.
  intros (C1 & K1 & _) (Hn & Hc & Hb). split; [|split; [congruence|]].
  - intros H. apply Hn, (calm_in OThrow _ _ C1 eq_refl H).
  - intros H. apply Hb, (calm_in OGotCancel _ _ C1 eq_refl H).
Qed.
Lemma J_throw t s : a_tr s = OThrow :: t -> cause t -> a_crashed s = true -> stopping s = false -> (In OGotCancel t -> b) -> J s.
Proof.
  intros E Hc Hk Hs Hb. split; [intros _; rewrite E; apply (cause_app [OThrow]); exact Hc|].
  repeat split; try congruence. rewrite E. intros [H|H]; [discriminate|auto].
Qed.
Lemma J_done s : NT s -> stopping s = false -> J (emit ODone (cancel s)).
Proof.
  intros (Hn & Hc & Hb) Hs. unfold cancel, isStopping. rewrite Hs. split; [|split; [|split; [|split]]]; cbn.
  - intros [H|H]; [discriminate|contradiction].
  - intros _ [H|H]; [discriminate|contradiction].
  - intros _. right. auto.
  - discriminate.
  - intros [H|H]; [discriminate|auto].
Qed.
Lemma q_timer s s' : q s s' -> stopping s = false -> stopping s' = false -> a_timer s' = a_timer s.
Proof. intros (_ & _ & _ & H) Hs Hs'. destruct (H Hs) as [[_ H1]|[H1 _]]; [exact H1|congruence]. Qed.

Lemma J_handleData seg d s : NT s -> stopping s = false -> a_timer s = true -> In (OGotData seg d) (a_tr s) -> J (handleData P C seg d s).
Proof.
  intros HN Hs Ht Hgot. unfold handleData, isStopping. rewrite Hs.
  assert (HL : match learnFbi d s with
               | (s1, true) => q s s1 /\ stopping s1 = false
               | (s1, false) => J s1
               end).
  { unfold learnFbi. destruct (b_hasFbi (a_b s)) eqn:Ef; [split; [apply q_refl|exact Hs]|].
    destruct (d_fbi d) as [|n|] eqn:Ed.
    - split; [apply q_refl|exact Hs].
    - cbv zeta. set (s1 := cancelGreater n (set_b (b_setFbi n (a_b s)) s)).
      assert (H1 : q s s1) by (eapply q_trans; [|apply q_cancelGreater]; qs).
      destruct (_ && _).
      + apply (J_q s); auto. eapply q_trans; [exact H1|apply q_onFailure].
      + split; [eapply q_trans; [exact H1|]; qs|]. exact Hs.
    - eapply (J_throw (a_tr s)); try reflexivity; [|exact Hs|apply HN]. right. exists seg, d. auto. }
  destruct (learnFbi d s) as [s1 cont]. destruct cont; cbn [negb]; [|exact HL].
  destruct HL as [HQ Hs1]. destruct (kget seg (a_segs s1)) as [i|]; [|now apply (J_q s)]. cbv zeta.
  set (s2 := set_highData _ s1). assert (HQ2 : q s s2) by (eapply q_trans; [exact HQ|qs]).
  set (s3 := if state_eqb _ _ then _ else _).
  assert (HQ3 : q s s3 /\ stopping s3 = false).
  { unfold s3. destruct (state_eqb _ _); (split; [|exact Hs1]); [exact HQ2|]. eapply q_trans; [exact HQ2|qs]. }
  clearbody s3. destruct HQ3 as [HQ3 Hs3]. pose proof (q_adapt seg d s3) as HA.
  assert (Hs4 : stopping (adaptWindow P C seg d s3) = false).
  { unfold adaptWindow, increaseWindow, decreaseWindow. cbv zeta. destruct (d_mark d); [|exact Hs3].
    destruct (negb _); [|exact Hs3]. destruct (_ || _); exact Hs3. }
  set (s4 := adaptWindow P C seg d s3) in *. clearbody s4.
  assert (HQ4 : q s s4) by (eapply q_trans; eauto).
  unfold onData. rewrite Hcb. set (s5 := emit (ODeliver seg d) _).
  assert (HQ5 : q s s5) by (eapply q_trans; [exact HQ4|]; eapply q_emit; qe).
  assert (Hs5 : stopping s5 = false) by exact Hs4.
  destruct (d_appnack d) eqn:Ea.
  { change (a_crashed (throw s5)) with true. cbv iota.
    eapply (J_throw (a_tr s5)); try reflexivity; [|exact Hs5|apply (N_q s s5 HQ5 HN)]. left. exists seg, d. split; [now left|exact Ea]. }
  assert (Hc5 : a_crashed s5 = false) by apply (N_q s s5 HQ5 HN).
  rewrite Hc5. pose proof (q_sample seg i (a_now s1 - si_timeSent i) s5) as HQ6.
  assert (Hs6 : stopping (sampleRtt P seg i (a_now s1 - si_timeSent i) s5) = false).
  { unfold sampleRtt. destruct (_ && _); exact Hs5. }
  set (s6 := sampleRtt _ _ _ _ s5) in *. clearbody s6.
  assert (HQ7 : q s (set_segs (kdel seg (a_segs s6)) s6)).
  { eapply q_trans; [exact HQ5|]. eapply q_trans; [exact HQ6|]. apply q_same; try reflexivity. intros _ ->. reflexivity. }
  destruct (b_allReceived _).
  - apply J_done; [now apply (N_q s)|exact Hs6].
  - apply (J_q s); auto. eapply q_trans; [exact HQ7|apply q_schedule].
Qed.

Lemma J_lost seg s : NT s -> stopping s = false -> a_timer s = true -> kmem seg (a_segs s) = true ->
  J (let s1 := enqueueForRetransmission seg s in
     if a_crashed s1 then s1 else schedulePackets P C (recordTimeout P C seg s1)).
Proof.
  intros HN Hs Ht Hm. cbv zeta. pose proof (q_enqueue seg s Hm) as HQ.
  assert (Hc : a_crashed (enqueueForRetransmission seg s) = false) by apply (N_q _ _ HQ HN).
  rewrite Hc. apply (J_q s); auto. eapply q_trans; [exact HQ|]. eapply q_trans; [apply q_recordTimeout|apply q_schedule].
Qed.

Lemma J_step s e : (e = AeCancel -> b) -> J s -> J (a_step P C s e).
Proof.
  intros He HJ. unfold a_step. destruct (a_crashed s) eqn:Ec; [exact HJ|].
  pose proof HJ as (J1 & J2 & J3 & J4 & J5). specialize (J2 Ec).
  assert (HF : forall seg (k : st -> st) o,
            (o = OThrow -> False) -> (o = OGotCancel -> False) ->
            (forall s', NT s' -> stopping s' = false -> a_timer s' = true -> kmem seg (a_segs s') = true -> In o (a_tr s') -> J (k s')) ->
            (forall s', stopping s' = true -> k s' = s') ->
            J (fromFace seg (fun s => k (emit o s)) s)).
  { intros seg k o Ho1 Ho2 Hk Hk'. unfold fromFace. destruct (kget seg (a_segs s)) as [i|] eqn:Ei; [|exact HJ].
    destruct (si_live i); [|exact HJ]. set (s1 := emit o _).
    assert (Hn1 : ~ In OThrow (a_tr s1)) by (intros [H|H]; auto).
    destruct (stopping s) eqn:Es.
    - rewrite Hk' by exact Es. split; [intros H; contradiction|]. split; [auto|]. split; [|split; [cbn; congruence|intros [H|H]; [contradiction|auto]]].
      intros _. destruct (J3 eq_refl) as [H|[H1 H2]].
      + left. cbn. rewrite H. apply orb_true_r.
      + rewrite H2 in Ei. discriminate.
    - apply Hk; [split; [exact Hn1|split; [exact Ec|intros [H|H]; [contradiction|auto]]]|exact Es|exact (J4 eq_refl Ec)| |now left].
      apply kmem_true. cbn. exists (SegInfo false (si_timeSent i) (si_rto i) (si_state i)). apply kget_kset_same. }
  destruct e as [seg d|seg rr|seg|order|dt|].
  - apply HF; try discriminate.
    + intros s' HN Hs Ht _ Hi. now apply J_handleData.
    + intros s' Hs. unfold handleData, isStopping. now rewrite Hs.
  - apply HF; try discriminate.
    + intros s' HN Hs Ht Hm Hi. unfold handleNack, isStopping. rewrite Hs.
      destruct rr; try (apply (J_q s'); auto; apply q_handleFail); [now apply J_lost|]. apply (J_q s'); auto. apply q_refl.
    + intros s' Hs. unfold handleNack, isStopping. now rewrite Hs.
  - apply HF; try discriminate.
    + intros s' HN Hs Ht Hm Hi. unfold handleLifetimeExpiration, isStopping. rewrite Hs.
      apply (J_lost seg (set_nTimeouts (a_nTimeouts s' + 1) s')); auto.
    + intros s' Hs. unfold handleLifetimeExpiration, isStopping. now rewrite Hs.
  - destruct (a_timer s) eqn:Et; [|exact HJ]. unfold checkRto, isStopping. cbn [set_timer a_b a_segs].
    destruct (stopping s) eqn:Es.
    + split; [exact J1|]. split; [auto|]. split; [|split; [cbn; congruence|exact J5]]. cbn. intros _. destruct (J3 eq_refl) as [H|[H _]]; [auto|congruence].
    + pose proof (q_fold (visit_order order (keys (a_segs s))) (set_timer false s, false, 0%N)) as HQ.
      destruct (fold_left _ _ _) as [[s1 has] high]. cbn [fst] in HQ.
      assert (HN : NT (set_timer false s)) by (split; auto).
      pose proof (N_q _ _ HQ HN) as (Hn1 & Hc1 & Hb1). rewrite Hc1.
      set (s2 := if has then _ else _). assert (HQ2 : q (set_timer false s) s2).
      { unfold s2. destruct has; [|exact HQ]. eapply q_trans; [exact HQ|]. eapply q_trans; [apply q_recordTimeout|apply q_schedule]. }
      clearbody s2. destruct (N_q _ _ HQ2 HN) as (Hn2 & Hc2 & Hb2). split; [intros H; contradiction|]. split; [auto|].
      destruct HQ2 as (_ & _ & _ & H). cbn. destruct (H Es) as [[H1 H2]|[H1 H2]]; split; [|split| |split]; auto; congruence.
  - exact HJ.
  - unfold cancel, isStopping. cbn [emit set_tr a_b]. destruct (stopping s) eqn:Es; cbn.
    + split; [|split; [|split; [|split]]]; cbn.
      * intros [H|H]; [discriminate|contradiction].
      * intros _ [H|H]; [discriminate|contradiction].
      * intros _. destruct (J3 eq_refl) as [H|H]; [rewrite H|]; auto.
      * congruence.
      * auto.
    + split; [|split; [|split; [|split]]]; cbn.
      * intros [H|H]; [discriminate|contradiction].
      * intros _ [H|H]; [discriminate|contradiction].
      * auto.
      * discriminate.
      * auto.
Qed.

Lemma J_fold es : (In AeCancel es -> b) -> forall s, J s -> J (fold_left (a_step P C) es s).
Proof.
  induction es as [|e es IH]; intros Hb s H; [exact H|]. cbn [fold_left]. apply IH; [intros Hi; apply Hb; now right|].
  apply J_step; [|exact H]. intros ->. apply Hb. now left.
Qed.
Lemma J_run es : (In AeCancel es -> b) -> J (a_run P C es).
Proof.
  intros Hb. unfold a_run. apply J_fold; [exact Hb|].
  unfold doRun. change (b_allReceived (a_b (a_init P))) with false. cbv iota.
  apply (J_q (set_timer true (a_init P))); try reflexivity; [apply q_schedule|]. split; [intros []|split; [reflexivity|intros []]].
Qed.
End Adaptive.

Section AdaptiveExit.
Context {W R : Type}.
Variable P : policy W R.
Variable C : aconfig.
Hypothesis Hcb : c_cbThrows C = d_appnack.
Variable es : list aevent.
Notation s := (a_run P C es).
Notation h := (a_history (a_run P C es)).

Lemma in_ah o : In o h <-> In o (a_tr s).
Proof. unfold a_history. symmetry. apply in_rev. Qed.
Lemma jrun : J (In AeCancel es) s.
Proof. apply J_run; auto. Qed.

Lemma adaptive_three : pipeline_status (a_working s) h = Some 3 <-> exists k d, In (ODeliver k d) h /\ d_appnack d = true.
Proof.
  split.
  - intros H. apply status_facts in H. destruct H as [[_ H]|[_ [[H _]|[H _]]]]; [exact H|discriminate|discriminate].
  - intros (k & d & H1 & H2). unfold pipeline_status. destruct (consumer_cases h) as [[_ ->]|[H _]]; [reflexivity|].
    rewrite (H k d H1) in H2. discriminate.
Qed.

Lemma adaptive_one : pipeline_status (a_working s) h = Some 1 ->
  (exists rs, In (OFail rs) h) \/ exists k d, In (OGotData k d) h /\ d_fbi d = FbiInvalid.
Proof.
  intros H. apply status_facts in H. destruct H as [[H _]|[Ha [[_ H]|[H _]]]]; [discriminate| |discriminate].
  destruct H as [H|H]; [|now left]. apply in_ah in H. destruct jrun as (J1 & _). apply J1 in H.
  apply cause_rev in H. destruct H as [(k & d & H1 & H2)|H]; [|now right]. rewrite (Ha k d H1) in H2. discriminate.
Qed.

Lemma adaptive_zero : ~ In AeCancel es -> pipeline_status (a_working s) h = Some 0 -> In ODone h.
Proof.
  intros Hnc H. apply status_facts in H. destruct H as [[H _]|[_ [[H _]|(_ & Hw & Hth & Hf)]]]; [discriminate|discriminate|].
  destruct jrun as (_ & J2 & J3 & J4 & J5). destruct (inv_run C P es) as [HA _].
  assert (Hc : a_crashed s = false).
  { destruct (a_crashed s) eqn:E; [|reflexivity]. exfalso. apply Hth, in_ah. now apply crash_thrown. }
  assert (Hs : b_stopping (a_b s) = true).
  { destruct (b_stopping (a_b s)) eqn:E; [reflexivity|]. unfold a_working in Hw. rewrite (J4 eq_refl Hc) in Hw. discriminate. }
  rewrite <- (A_end _ _ HA) in Hs. rewrite <- (rev_involutive (a_tr s)), ended_rev in Hs.
  apply existsb_exists in Hs. destruct Hs as (o & H1 & H2).
  destruct o as [| | | | | |rs| | | | | | | | | | |]; try discriminate.
  - exfalso. apply Hnc, J5. now apply in_ah.
  - exfalso. now apply (Hf rs).
  - exact H1.
Qed.

Lemma adaptive_done_zero chunks : genuine_history chunks h -> In ODone h -> pipeline_status (a_working s) h = Some 0.
Proof.
  intros Hg Hd.
  assert (Hna : forall k d, In (ODeliver k d) h -> d_appnack d = false).
  { intros k d Hi. apply in_split in Hi. destruct Hi as (h1 & h2 & E).
    destruct (adaptive_delivery_genuine P C es h1 k d h2 E) as [H _].
    apply (Hg k d). rewrite E. apply in_or_app. now left. }
  destruct jrun as (J1 & J2 & J3 & J4 & J5). destruct (inv_run C P es) as [HA _].
  assert (Hth : ~ In OThrow h).
  { intros H. apply in_ah, J1, cause_rev in H.
    destruct H as [(k & d & H1 & H2)|(k & d & H1 & H2)]; [rewrite (Hna k d H1) in H2; discriminate|].
    apply Hg in H1. destruct H1 as (_ & _ & [H|H]); congruence. }
  assert (Hf : forall rs, ~ In (OFail rs) h).
  { intros rs Hi. destruct (in_split _ _ Hd) as (h1 & h2 & E). rewrite E in Hi. apply in_app_or in Hi.
    destruct Hi as [Hi|[Hi|Hi]]; [|discriminate|].
    - apply in_split in Hi. destruct Hi as (g1 & g2 & Eg). rewrite Eg, <- app_assoc in E.
      cbn in E. pose proof (adaptive_over P C es g1 (OFail rs) (g2 ++ ODone :: h2) E eq_refl ODone) as H.
      assert (Hi : In ODone (g2 ++ ODone :: h2)) by (apply in_or_app; right; now left). specialize (H Hi). discriminate.
    - pose proof (adaptive_over P C es h1 ODone h2 E eq_refl _ Hi) as H. discriminate. }
  assert (Hs : b_stopping (a_b s) = true).
  { rewrite <- (A_end _ _ HA), <- (rev_involutive (a_tr s)), ended_rev. apply existsb_exists. exists ODone. auto. }
  assert (Hw : a_working s = false).
  { destruct (J3 Hs) as [H|[H1 H2]].
    - apply ex_failure in H. destruct H as (rs & H). exfalso. apply (Hf rs). now apply in_ah.
    - unfold a_working. now rewrite H1, H2. }
  unfold pipeline_status. destruct (consumer_cases h) as [[(k & d & H1 & H2) _]|[_ ->]].
  { rewrite (Hna k d H1) in H2. discriminate. }
  destruct (existsb is_throw h) eqn:Et; [apply ex_throw in Et; contradiction|].
  destruct (existsb is_failure h) eqn:Ef; [apply ex_failure in Ef; destruct Ef as [rs Ef]; now apply Hf in Ef|].
  now rewrite Hw.
Qed.
End AdaptiveExit.
