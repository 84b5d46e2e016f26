(** Proofs about the log files of ndncatchunks: what the pipeline emits during an event. *)
From Verif Require Import Base BaseFacts PipelineBase PipelineSpec AdaptiveModel ChunksTextModel ChunksTextSpec.
From Coq Require Import List.
Import ListNotations.

Lemma windows_app a b : windows (a ++ b) = windows a ++ windows b.
Proof. apply filter_app. Qed.
Lemma samples_app a b : samples (a ++ b) = samples a ++ samples b.
Proof. apply filter_app. Qed.

Section L.
Context {W R : Type}.
Variable P : policy W R.
Variable C : aconfig.
Notation st := (@astate W R).

(** nothing that is logged *)
Definition quiet (s s' : st) : Prop :=
  a_cwnd s' = a_cwnd s /\ a_rtt s' = a_rtt s /\ a_now s' = a_now s /\
  exists l, a_tr s' = l ++ a_tr s /\ windows l = [] /\ samples l = [].
Lemma q_same s s' : a_cwnd s' = a_cwnd s -> a_rtt s' = a_rtt s -> a_now s' = a_now s -> a_tr s' = a_tr s -> quiet s s'.
Proof. intros H1 H2 H3 H4. repeat split; auto. exists []. auto. Qed.
Lemma q_one o s s' : a_cwnd s' = a_cwnd s -> a_rtt s' = a_rtt s -> a_now s' = a_now s -> a_tr s' = o :: a_tr s ->
  windows [o] = [] -> samples [o] = [] -> quiet s s'.
Proof. intros H1 H2 H3 H4 H5 H6. repeat split; auto. exists [o]. auto. Qed.
Lemma q_trans a b c : quiet a b -> quiet b c -> quiet a c.
Proof.
  intros (H1 & H2 & H3 & l & H4 & H5 & H6) (G1 & G2 & G3 & l' & G4 & G5 & G6). repeat split; try congruence.
  exists (l' ++ l). rewrite G4, H4, windows_app, samples_app, H5, H6, G5, G6, app_assoc. auto.
Qed.
Lemma q_refl s : quiet s s. Proof. apply q_same; reflexivity. Qed.
Ltac same := apply q_same; reflexivity.
Ltac one := eapply q_one; reflexivity.

Lemma q_cancel s : quiet s (cancel s).
Proof. unfold cancel. destruct (isStopping s); same. Qed.
Lemma q_onFailure r s : quiet s (onFailure r s).
Proof. unfold onFailure. destruct (isStopping s); [apply q_refl|]. eapply q_trans; [apply q_cancel|one]. Qed.
Lemma q_cancelGreater n s : quiet s (cancelGreater n s).
Proof.
  unfold cancelGreater. repeat split. eexists. split; [reflexivity|].
  match goal with |- windows (map _ ?l) = [] /\ _ => induction l; auto end.
Qed.
Lemma q_handleFail seg r s : quiet s (handleFail seg r s).
Proof.
  unfold handleFail. destruct (isStopping s); [apply q_refl|]. destruct (b_hasFbi (a_b s) && _); [apply q_onFailure|].
  destruct (negb _); [|apply q_refl]. cbv zeta. destruct (a_segs _) eqn:E.
  - eapply q_trans; [|apply q_onFailure]. one.
  - match goal with |- quiet _ (set_failReason _ (set_failedSeg _ (set_hasFailure _ (cancelGreater ?k ?x)))) =>
      eapply q_trans with x; [one|eapply q_trans; [apply (q_cancelGreater k x)|same]] end.
Qed.
Lemma q_express seg retx s : quiet s (express P seg retx s).
Proof. unfold express. destruct retx; one. Qed.
Lemma q_sendInterest seg retx s : quiet s (sendInterest P C seg retx s).
Proof.
  unfold sendInterest. destruct (isStopping s); [apply q_refl|]. destruct (_ && _); [apply q_refl|].
  destruct (_ && _); [apply q_refl|]. destruct retx; [|apply q_express].
  destruct (kget seg (a_retxCount s)); cbv zeta; [destruct (_ && _)|].
  - eapply q_trans; [|apply q_handleFail]. same.
  - eapply q_trans; [|apply q_express]. same.
  - eapply q_trans; [|apply q_express]. same.
Qed.
Lemma q_dropSkipped q : forall s, quiet s (dropSkipped q s).
Proof.
  induction q as [|k q IH]; intros s; cbn [dropSkipped]; [same|]. destruct (kmem k (a_segs s)); [same|].
  eapply q_trans; [|apply IH]. one.
Qed.
Lemma q_sendOne s : quiet s (sendOne P C s).
Proof.
  unfold sendOne. cbv zeta. pose proof (q_dropSkipped (a_retxq s) s) as H. set (s1 := dropSkipped _ s) in *.
  destruct (a_retxq s1); [destruct (b_getNext (a_b s1)) as [k b]|].
  all: eapply q_trans; [exact H|]; eapply q_trans; [|apply q_sendInterest]; same.
Qed.
Lemma q_iter n : forall s, quiet s (iter n (sendOne P C) s).
Proof. induction n as [|n IH]; intros s; cbn [iter]; [apply q_refl|]. eapply q_trans; [apply q_sendOne|apply IH]. Qed.
Lemma q_schedule s : quiet s (schedulePackets P C s).
Proof. unfold schedulePackets. cbv zeta. eapply q_trans; [|apply q_iter]. destruct (_ <? _); [one|same]. Qed.
Lemma q_enqueue seg s : quiet s (enqueueForRetransmission seg s).
Proof.
  unfold enqueueForRetransmission. cbv zeta. eapply q_trans with (if 0 <? a_nInFlight s then s else emit OAssert s).
  { destruct (0 <? a_nInFlight s); [same|one]. }
  generalize (if 0 <? a_nInFlight s then s else emit OAssert s). intros s1. destruct (kget seg _); [same|one].
Qed.
Lemma q_checkRto1 s has high seg : quiet s (fst (fst (checkRto1 (s, has, high) seg))).
Proof.
  unfold checkRto1. destruct (kget seg (a_segs s)); [|apply q_refl]. destruct (_ && _); [|apply q_refl].
  cbv zeta. cbn [fst]. eapply q_trans; [|apply q_enqueue]. one.
Qed.
Lemma q_checkRto_fold l : forall acc, quiet (fst (fst acc)) (fst (fst (fold_left checkRto1 l acc))).
Proof.
  induction l as [|k l IH]; intros [[s has] high]; cbn [fold_left]; [apply q_refl|].
  eapply q_trans; [apply q_checkRto1|apply IH].
Qed.
Lemma q_learnFbi d s : quiet s (fst (learnFbi d s)).
Proof.
  unfold learnFbi. destruct (b_hasFbi (a_b s)); [apply q_refl|]. destruct (d_fbi d); [apply q_refl| |one].
  all: cbv zeta; match goal with |- context [cancelGreater ?k ?x] => assert (HS : quiet s (cancelGreater k x));
    [apply q_trans with x; [same|apply q_cancelGreater]|set (s1 := cancelGreater k x) in *] end.
  all: destruct (_ && _); cbn [fst]; [eapply q_trans; [exact HS|apply q_onFailure]|eapply q_trans; [exact HS|same]].
Qed.
Lemma q_onData seg d s : quiet s (onData C seg d s).
Proof.
  unfold onData. cbv zeta. eapply q_trans with (emit (ODeliver seg d) (set_b (b_received d (a_b s)) s)); [one|].
  destruct (c_cbThrows C d); [one|same].
Qed.
Lemma q_done s : quiet s (emit ODone (cancel s)).
Proof. eapply q_trans; [apply q_cancel|one]. Qed.

(** at most one change of the window and one measurement *)
Definition logged1 (s s' : st) : Prop :=
  a_now s' = a_now s /\
  exists l, a_tr s' = l ++ a_tr s /\
    (windows l = [] /\ a_cwnd s' = a_cwnd s \/ windows l = [OWindow (p_floor P (a_cwnd s'))]) /\
    (samples l = [] \/ exists seg rtt n, samples l = [ORttSample seg rtt n] /\ a_rtt s' = p_sample P rtt n (a_rtt s)).
Lemma l_quiet s s' : quiet s s' -> logged1 s s'.
Proof. intros (H1 & H2 & H3 & l & H4 & H5 & H6). split; [exact H3|]. exists l. auto. Qed.
Lemma l_q s s1 s' : logged1 s s1 -> quiet s1 s' -> logged1 s s'.
Proof.
  intros (H1 & l & H2 & H3 & H4) (G1 & G2 & G3 & l' & G4 & G5 & G6). split; [congruence|]. exists (l' ++ l).
  rewrite G4, H2, windows_app, samples_app, G5, G6, G1, G2, app_assoc. auto.
Qed.
Lemma q_l s s1 s' : quiet s s1 -> logged1 s1 s' -> logged1 s s'.
Proof.
  intros (G1 & G2 & G3 & l' & G4 & G5 & G6) (H1 & l & H2 & H3 & H4). split; [congruence|]. exists (l ++ l').
  rewrite H2, G4, windows_app, samples_app, G5, G6, !app_nil_r, app_assoc, <- G1, <- G2. auto.
Qed.

Lemma l_recordTimeout seg s : logged1 s (recordTimeout P C seg s).
Proof.
  unfold recordTimeout. destruct (_ || _); [|apply l_quiet, q_refl]. cbv zeta. split; [reflexivity|].
  exists [ODecrLoss seg; OWindow (p_floor P (p_decr P (a_now s) (a_cwnd s)))]. cbn. auto.
Qed.
Lemma l_lost seg s :
  logged1 s (let s1 := enqueueForRetransmission seg s in if a_crashed s1 then s1 else schedulePackets P C (recordTimeout P C seg s1)).
Proof.
  cbv zeta. eapply q_l; [apply q_enqueue|]. set (s1 := enqueueForRetransmission seg s). destruct (a_crashed s1); [apply l_quiet, q_refl|].
  eapply l_q; [apply l_recordTimeout|apply q_schedule].
Qed.
Lemma l_checkRto order s : logged1 s (checkRto P C order s).
Proof.
  unfold checkRto. destruct (isStopping s); [apply l_quiet, q_refl|].
  pose proof (q_checkRto_fold (visit_order order (keys (a_segs s))) (s, false, 0%N)) as HS.
  destruct (fold_left _ _ _) as [[s1 has] high]. cbn [fst] in HS. eapply q_l; [exact HS|].
  destruct (a_crashed s1); [apply l_quiet, q_refl|]. cbv zeta. destruct has; [|apply l_quiet; same].
  eapply l_q; [apply l_recordTimeout|]. eapply q_trans; [apply q_schedule|same].
Qed.
Lemma l_adapt seg d s : logged1 s (adaptWindow P C seg d s) /\ a_rtt (adaptWindow P C seg d s) = a_rtt s /\
  exists l, a_tr (adaptWindow P C seg d s) = l ++ a_tr s /\ samples l = [] /\
    (windows l = [] /\ a_cwnd (adaptWindow P C seg d s) = a_cwnd s \/ windows l = [OWindow (p_floor P (a_cwnd (adaptWindow P C seg d s)))]).
Proof.
  assert (HI : forall s0, logged1 s0 (increaseWindow P s0) /\ a_rtt (increaseWindow P s0) = a_rtt s0 /\
    exists l, a_tr (increaseWindow P s0) = l ++ a_tr s0 /\ samples l = [] /\
    (windows l = [] /\ a_cwnd (increaseWindow P s0) = a_cwnd s0 \/ windows l = [OWindow (p_floor P (a_cwnd (increaseWindow P s0)))])).
  { intros s0. unfold increaseWindow. cbv zeta. split; [split; [reflexivity|]|split; [reflexivity|]].
    all: exists [OWindow (p_floor P (p_incr P (a_now s0) (a_rtt s0) (a_cwnd s0)))]; cbn; auto. }
  unfold adaptWindow. destruct (d_mark d); [|apply HI]. cbv zeta. destruct (negb _); [|apply (HI (set_nCongMarks _ s))].
  destruct (_ || _).
  - unfold decreaseWindow. cbv zeta. split; [split; [reflexivity|]|split; [reflexivity|]].
    all: eexists [OWindow _; ODecrMark seg]; cbn; auto.
  - split; [apply l_quiet; same|]. split; [reflexivity|]. exists []. auto.
Qed.
Lemma l_data seg d i rtt s :
  let s1 := onData C seg d (adaptWindow P C seg d s) in logged1 s s1 /\ logged1 s (sampleRtt P seg i rtt s1).
Proof.
  cbv zeta. destruct (l_adapt seg d s) as (H1 & H2 & l & H3 & H4 & H5). set (s0 := adaptWindow P C seg d s) in *.
  pose proof (q_onData seg d s0) as Q. split; [eapply l_q; [exact H1|exact Q]|]. unfold sampleRtt.
  destruct (_ && _); [|eapply l_q; [exact H1|exact Q]]. cbv zeta.
  destruct Q as (G1 & G2 & G3 & l' & G4 & G5 & G6). destruct H1 as [H1 _]. set (s1 := onData C seg d s0) in *.
  set (n := Z.max _ _). split; [cbn; congruence|]. exists (ORttSample seg rtt n :: l' ++ l). cbn [a_tr emit set_tr set_rtt a_rtt a_cwnd].
  split; [rewrite G4, H3, app_assoc; reflexivity|].
  change (ORttSample seg rtt n :: l' ++ l) with ([ORttSample seg rtt n] ++ l' ++ l).
  rewrite !windows_app, !samples_app, G5, G6, H4. split.
  - cbn [windows filter app]. rewrite G1. exact H5.
  - right. exists seg, rtt, n. split; [reflexivity|]. rewrite G2, H2. reflexivity.
Qed.
Lemma l_handleData seg d s : logged1 s (handleData P C seg d s).
Proof.
  unfold handleData. destruct (isStopping s); [apply l_quiet, q_refl|].
  pose proof (q_learnFbi d s) as HS. destruct (learnFbi d s) as [s1 k]. cbn [fst] in HS. eapply q_l; [exact HS|].
  destruct (negb k); [apply l_quiet, q_refl|]. destruct (kget seg (a_segs s1)) as [i|]; [|apply l_quiet, q_refl]. cbv zeta.
  match goal with |- context [adaptWindow P C seg d ?x] => eapply q_l with x; [destruct (state_eqb _ _); same|];
    pose proof (l_data seg d i (a_now s1 - si_timeSent i) x) as [H1 H2]; set (s2 := onData C seg d (adaptWindow P C seg d x)) in *; set (s0 := x) in * end.
  destruct (a_crashed s2); [exact H1|]. set (s4 := sampleRtt P seg i _ s2) in *.
  destruct (b_allReceived _).
  - eapply l_q; [exact H2|]. eapply q_trans; [|apply q_done]. same.
  - eapply l_q; [exact H2|]. eapply q_trans; [|apply q_schedule]. same.
Qed.
Lemma l_handleNack seg r s : logged1 s (handleNack P C seg r s).
Proof.
  unfold handleNack. destruct (isStopping s); [apply l_quiet, q_refl|].
  destruct r; try (apply l_quiet, q_refl); try (apply l_quiet, q_handleFail). apply l_lost.
Qed.
Lemma l_expire seg s : logged1 s (handleLifetimeExpiration P C seg s).
Proof.
  unfold handleLifetimeExpiration. destruct (isStopping s); [apply l_quiet, q_refl|]. cbv zeta.
  eapply q_l; [|apply l_lost]. same.
Qed.
Lemma l_step s e : match e with AeTick _ => True | _ => logged1 s (a_step P C s e) end.
Proof.
  assert (HF : forall o seg k, windows [o] = [] -> samples [o] = [] -> (forall s', logged1 s' (k s')) ->
            logged1 s (fromFace seg (fun s => k (emit o s)) s)).
  { intros o seg k H1 H2 Hk. unfold fromFace. destruct (kget seg (a_segs s)) as [i|]; [|apply l_quiet, q_refl]. destruct (si_live i); [|apply l_quiet, q_refl].
    eapply q_l; [|apply Hk]. eapply q_one; try reflexivity; assumption. }
  destruct e; try exact I; unfold a_step; destruct (a_crashed s); try (apply l_quiet, q_refl).
  - apply HF; try reflexivity. intros. apply l_handleData.
  - apply HF; try reflexivity. intros. apply l_handleNack.
  - apply HF; try reflexivity. intros. apply l_expire.
  - destruct (a_timer s); [|apply l_quiet, q_refl]. eapply q_l; [|apply l_checkRto]. same.
  - apply l_quiet. eapply q_trans; [|apply q_cancel]. one.
Qed.
Lemma q_start : quiet (a_init P) (doRun P C (a_init P)).
Proof.
  unfold doRun. destruct (b_allReceived _); [apply q_done|]. eapply q_trans; [|apply q_schedule]. same.
Qed.
Lemma a_run_snoc es e : a_run P C (es ++ [e]) = a_step P C (a_run P C es) e.
Proof. unfold a_run. now rewrite fold_left_app. Qed.

(** the time *)
Lemma passed_snoc es e : passed (es ++ [e]) = (passed es + match e with AeTick dt => Z.of_N dt | _ => 0 end)%Z.
Proof. unfold passed. induction es as [|x es IH]; cbn [app fold_right]; [destruct e; lia|]. rewrite IH. destruct x; lia. Qed.
Lemma passed_ge0 es : (0 <= passed es)%Z.
Proof. unfold passed. induction es as [|x es IH]; cbn [fold_right]; [lia|]. destruct x; lia. Qed.
Lemma now_run es : a_now (a_run P C es) = passed es \/ a_crashed (a_run P C es) = true.
Proof.
  induction es as [|e es IH] using rev_ind; [left; exact (proj1 (proj2 (proj2 q_start)))|]. rewrite a_run_snoc, passed_snoc.
  set (s := a_run P C es) in *. destruct (a_crashed s) eqn:Ec.
  { right. unfold a_step. rewrite Ec. exact Ec. }
  destruct IH as [IH|IH]; [left|discriminate]. destruct e; try (pose proof (l_step s) as HL;
    match goal with |- a_now (a_step _ _ _ ?e) = _ => specialize (HL e) end; cbn iota in HL; destruct HL as [HL _]; rewrite HL; lia).
  unfold a_step. rewrite Ec. cbn. lia.
Qed.
Lemma now_nonneg es : (0 <= a_now (a_run P C es) <= passed es)%Z.
Proof.
  induction es as [|e es IH] using rev_ind.
  { change (a_now (a_run P C [])) with (a_now (doRun P C (a_init P))). destruct q_start as (_ & _ & -> & _). cbn. lia. }
  rewrite a_run_snoc, passed_snoc. set (s := a_run P C es) in *.
  destruct e; try (pose proof (l_step s) as HL;
    match goal with |- context [a_step _ _ _ ?e] => specialize (HL e) end; cbn iota in HL; destruct HL as [HL _]; rewrite HL; lia).
  unfold a_step. destruct (a_crashed s); cbn; lia.
Qed.
End L.
