(** The window of a running pipeline and what it reports. *)
From Verif Require Import Base BaseFacts PipelineBase AdaptiveModel Double WindowModel RateSpec RateProofs.

Definition evs (t : list pobs) : list pobs := filter window_event t.
Lemma evs_app a b : evs (a ++ b) = evs a ++ evs b.
Proof. apply filter_app. Qed.

Section L.
Context {W R : Type}.
Variable P : policy W R.
Variable C : aconfig.
Variable srtt : R -> Z.
Variable run : list wop -> W.
Hypothesis run_nil : run [] = p_initW P.
Hypothesis run_incr : forall ops now r, run (ops ++ [Increase now (srtt r)]) = p_incr P now r (run ops).
Hypothesis run_decr : forall ops now, run (ops ++ [Decrease now]) = p_decr P now (run ops).
Notation st := (@astate W R).
Notation log := (window_log (c_ignoreCongMarks C) (fun ops => p_floor P (run ops))).

Definition samew (s s' : st) : Prop := a_cwnd s' = a_cwnd s /\ evs (a_tr s') = evs (a_tr s).
Lemma samew_refl s : samew s s. Proof. split; reflexivity. Qed.
Lemma samew_trans a b c : samew a b -> samew b c -> samew a c.
Proof. intros [H1 H2] [H3 H4]. split; congruence. Qed.

Lemma sw_cancel s : samew s (cancel s).
Proof. unfold cancel. destruct (isStopping s); split; reflexivity. Qed.
Lemma sw_onFailure r s : samew s (onFailure r s).
Proof. unfold onFailure. destruct (isStopping s); [apply samew_refl|]. destruct (sw_cancel s) as [H1 H2]. split; [exact H1|exact H2]. Qed.
Lemma sw_cancelGreater n s : samew s (cancelGreater n s).
Proof.
  split; [reflexivity|]. unfold cancelGreater. cbn. rewrite evs_app.
  assert (E : forall l : list (N * seginfo), evs (map (fun e => OAbandon (fst e)) l) = []) by (induction l; auto). now rewrite E.
Qed.
Lemma sw_handleFail seg r s : samew s (handleFail seg r s).
Proof.
  unfold handleFail. destruct (isStopping s); [apply samew_refl|]. destruct (b_hasFbi (a_b s) && _); [apply sw_onFailure|].
  destruct (negb _); [|apply samew_refl]. cbv zeta. destruct (a_segs _) eqn:E.
  - eapply samew_trans; [|apply sw_onFailure]. split; reflexivity.
  - match goal with |- samew _ (set_failReason _ (set_failedSeg _ (set_hasFailure _ (cancelGreater ?k ?x)))) =>
      pose proof (sw_cancelGreater k x) as [H1 H2]; split; [exact H1|exact H2] end.
Qed.
Lemma sw_express seg retx s : samew s (express P seg retx s).
Proof. unfold express. destruct retx; split; reflexivity. Qed.
Lemma sw_sendInterest seg retx s : samew s (sendInterest P C seg retx s).
Proof.
  unfold sendInterest. destruct (isStopping s); [apply samew_refl|]. destruct (_ && _); [apply samew_refl|].
  destruct (_ && _); [apply samew_refl|]. destruct retx; [|apply sw_express].
  destruct (kget seg (a_retxCount s)); cbv zeta; [destruct (_ && _)|].
  - eapply samew_trans; [|apply sw_handleFail]. split; reflexivity.
  - eapply samew_trans; [|apply sw_express]. split; reflexivity.
  - eapply samew_trans; [|apply sw_express]. split; reflexivity.
Qed.
Lemma sw_dropSkipped q : forall s, samew s (dropSkipped q s).
Proof.
  induction q as [|k q IH]; intros s; cbn [dropSkipped]; [split; reflexivity|]. destruct (kmem k (a_segs s)); [split; reflexivity|].
  eapply samew_trans; [|apply IH]. split; reflexivity.
Qed.
Lemma sw_sendOne s : samew s (sendOne P C s).
Proof.
  unfold sendOne. cbv zeta. pose proof (sw_dropSkipped (a_retxq s) s) as H. set (s1 := dropSkipped _ s) in *.
  destruct (a_retxq s1); [destruct (b_getNext (a_b s1)) as [k b]|].
  all: eapply samew_trans; [exact H|]; eapply samew_trans; [|apply sw_sendInterest]; split; reflexivity.
Qed.
Lemma sw_iter n : forall s, samew s (iter n (sendOne P C) s).
Proof. induction n as [|n IH]; intros s; cbn [iter]; [apply samew_refl|]. eapply samew_trans; [apply sw_sendOne|apply IH]. Qed.
Lemma sw_schedule s : samew s (schedulePackets P C s).
Proof. unfold schedulePackets. cbv zeta. eapply samew_trans; [|apply sw_iter]. destruct (_ <? _); split; reflexivity. Qed.
Lemma sw_enqueue seg s : samew s (enqueueForRetransmission seg s).
Proof. unfold enqueueForRetransmission. cbv zeta. destruct (0 <? a_nInFlight s); destruct (kget seg _); split; reflexivity. Qed.
Lemma sw_checkRto1 s has high seg : samew s (fst (fst (checkRto1 (s, has, high) seg))).
Proof.
  unfold checkRto1. destruct (kget seg (a_segs s)); [|apply samew_refl]. destruct (_ && _); [|apply samew_refl].
  cbv zeta. cbn [fst]. eapply samew_trans; [|apply sw_enqueue]. split; reflexivity.
Qed.
Lemma sw_checkRto_fold l : forall acc, samew (fst (fst acc)) (fst (fst (fold_left checkRto1 l acc))).
Proof.
  induction l as [|k l IH]; intros [[s has] high]; cbn [fold_left]; [apply samew_refl|].
  eapply samew_trans; [apply sw_checkRto1|apply IH].
Qed.
Lemma sw_learnFbi d s : samew s (fst (learnFbi d s)).
Proof.
  unfold learnFbi. destruct (b_hasFbi (a_b s)); [apply samew_refl|]. destruct (d_fbi d); [apply samew_refl| |split; reflexivity].
  all: cbv zeta; match goal with |- context [cancelGreater ?k ?x] => pose proof (sw_cancelGreater k x) as HS; set (s1 := cancelGreater k x) in * end.
  all: destruct (_ && _); cbn [fst]; [eapply samew_trans; [|apply sw_onFailure]|]; exact HS.
Qed.
Lemma sw_sampleRtt seg i rtt s : samew s (sampleRtt P seg i rtt s).
Proof. unfold sampleRtt. destruct (_ && _); split; reflexivity. Qed.

(** [l]: the events, latest first *)
Definition logged (l : list pobs) (w : W) : Prop := exists ops, log (rev l) ops /\ w = run ops.
Definition LI (s : st) : Prop := logged (evs (a_tr s)) (a_cwnd s).
Lemma li_same s s' : samew s s' -> LI s -> LI s'.
Proof. unfold LI. intros [-> ->]. auto. Qed.

Lemma li_recordTimeout seg s : LI s -> LI (recordTimeout P C seg s).
Proof.
  intros (ops & H & E). unfold recordTimeout. destruct (_ || _); [|exists ops; auto]. cbv zeta.
  exists (ops ++ [Decrease (a_now s)]). unfold decreaseWindow. cbn. rewrite run_decr, <- E. split; [|reflexivity].
  rewrite <- app_assoc. cbn [app]. rewrite E, <- run_decr. now apply (log_loss _ (fun ops => p_floor P (run ops))).
Qed.
Lemma li_lost seg s : LI s ->
  LI (let s1 := enqueueForRetransmission seg s in if a_crashed s1 then s1 else schedulePackets P C (recordTimeout P C seg s1)).
Proof.
  intros H. cbv zeta. assert (H' : LI (enqueueForRetransmission seg s)) by (eapply li_same; [apply sw_enqueue|exact H]).
  destruct (a_crashed _); [exact H'|]. eapply li_same; [apply sw_schedule|]. now apply li_recordTimeout.
Qed.
Lemma li_checkRto order s : LI s -> LI (checkRto P C order s).
Proof.
  intros H. unfold checkRto. destruct (isStopping s); [exact H|].
  pose proof (sw_checkRto_fold (visit_order order (keys (a_segs s))) (s, false, 0%N)) as HS.
  destruct (fold_left _ _ _) as [[s1 has] high]. cbn [fst] in HS. assert (H1 : LI s1) by (eapply li_same; [exact HS|exact H]).
  destruct (a_crashed s1); [exact H1|]. cbv zeta. destruct has.
  - eapply li_same; [split; reflexivity|]. eapply li_same; [apply sw_schedule|]. now apply li_recordTimeout.
  - eapply li_same; [|exact H1]. split; reflexivity.
Qed.

Lemma li_data seg d s s0 : LI s -> a_cwnd s0 = a_cwnd s -> evs (a_tr s0) = OGotData seg d :: evs (a_tr s) ->
  LI s0 /\ LI (onData C seg d (adaptWindow P C seg d s0)).
Proof.
  intros (ops & H & E) Ec Et. split.
  { exists ops. rewrite Et, Ec. cbn [rev]. split; [|exact E]. now constructor. }
  unfold LI.
  assert (G : forall s2 : st, a_cwnd (onData C seg d s2) = a_cwnd s2 /\ evs (a_tr (onData C seg d s2)) = ODeliver seg d :: evs (a_tr s2)).
  { intros s2. unfold onData. cbv zeta. destruct (c_cbThrows C d); split; reflexivity. }
  destruct (G (adaptWindow P C seg d s0)) as [-> ->]. unfold adaptWindow, increaseWindow, decreaseWindow. cbv zeta.
  destruct (d_mark d) eqn:Em; [destruct (c_ignoreCongMarks C) eqn:Ei; cbn [negb]; [|destruct (_ || _)]|].
  - exists (ops ++ [Increase (a_now s0) (srtt (a_rtt s0))]). cbn. fold (evs (a_tr s0)). rewrite Et. cbn [rev].
    rewrite run_incr, Ec, E. split; [|reflexivity]. rewrite <- !app_assoc. cbn [app]. rewrite <- run_incr. rewrite ?Ei in *. apply (log_up _ (fun ops => p_floor P (run ops))); auto.
  - exists (ops ++ [Decrease (a_now s0)]). cbn. fold (evs (a_tr s0)). rewrite Et. cbn [rev].
    rewrite run_decr, Ec, E. split; [|reflexivity]. rewrite <- !app_assoc. cbn [app]. rewrite <- run_decr. rewrite ?Ei in *. now apply (log_mark _ (fun ops => p_floor P (run ops))).
  - exists ops. cbn. fold (evs (a_tr s0)). rewrite Et. cbn [rev]. split; [|congruence]. rewrite <- app_assoc. rewrite ?Ei in *. now apply (log_mark_again _ (fun ops => p_floor P (run ops))).
  - exists (ops ++ [Increase (a_now s0) (srtt (a_rtt s0))]). cbn. fold (evs (a_tr s0)). rewrite Et. cbn [rev].
    rewrite run_incr, Ec, E. split; [|reflexivity]. rewrite <- !app_assoc. cbn [app]. rewrite <- run_incr. apply (log_up _ (fun ops => p_floor P (run ops))); auto.
Qed.
Lemma li_handleData seg d s : LI s -> LI (handleData P C seg d (emit (OGotData seg d) s)).
Proof.
  intros H. assert (H0 : LI (emit (OGotData seg d) s)) by (apply (li_data seg d s); auto).
  unfold handleData. destruct (isStopping _); [exact H0|].
  pose proof (sw_learnFbi d (emit (OGotData seg d) s)) as HS. destruct (learnFbi d _) as [s1 k]. cbn [fst] in HS.
  assert (H1 : LI s1) by (eapply li_same; [exact HS|exact H0]). destruct (negb k); [exact H1|].
  destruct (kget seg (a_segs s1)) as [i|]; [|exact H1]. cbv zeta.
  match goal with |- context [adaptWindow P C seg d ?x] => assert (H3 : LI (onData C seg d (adaptWindow P C seg d x))); [|set (s3 := onData C seg d (adaptWindow P C seg d x)) in *] end.
  { destruct HS as [E1 E2]. apply (li_data seg d s); [exact H| |].
    - destruct (state_eqb _ _); exact E1.
    - destruct (state_eqb _ _); exact E2. }
  destruct (a_crashed s3); [exact H3|].
  match goal with |- context [sampleRtt P seg i ?r s3] => assert (H4 : LI (sampleRtt P seg i r s3)) by (eapply li_same; [apply sw_sampleRtt|exact H3]); set (s4 := sampleRtt P seg i r s3) in * end.
  destruct (b_allReceived _).
  - eapply li_same; [|exact H4]. match goal with |- samew _ (emit ODone (cancel ?x)) => destruct (sw_cancel x) as [E1 E2]; split; [exact E1|exact E2] end.
  - eapply li_same; [apply sw_schedule|]. eapply li_same; [|exact H4]. split; reflexivity.
Qed.
Lemma li_handleNack seg r s : LI s -> LI (handleNack P C seg r s).
Proof.
  intros H. unfold handleNack. destruct (isStopping s); [exact H|].
  destruct r; try exact H; try (eapply li_same; [apply sw_handleFail|exact H]). now apply li_lost.
Qed.
Lemma li_expire seg s : LI s -> LI (handleLifetimeExpiration P C seg s).
Proof.
  intros H. unfold handleLifetimeExpiration. destruct (isStopping s); [exact H|]. cbv zeta. apply li_lost.
  eapply li_same; [|exact H]. split; reflexivity.
Qed.
Lemma li_step s e : LI s -> LI (a_step P C s e).
Proof.
  intros H. unfold a_step. destruct (a_crashed s); [exact H|].
  assert (HF : forall seg k, (forall s', LI s' -> LI (k s')) -> LI (fromFace seg k s)).
  { intros seg k Hk. unfold fromFace. destruct (kget seg (a_segs s)) as [i|]; [|exact H]. destruct (si_live i); [|exact H].
    apply Hk. eapply li_same; [|exact H]. split; reflexivity. }
  destruct e.
  - apply HF. intros s' H'. now apply li_handleData.
  - apply HF. intros s' H'. apply li_handleNack. eapply li_same; [|exact H']. split; reflexivity.
  - apply HF. intros s' H'. apply li_expire. eapply li_same; [|exact H']. split; reflexivity.
  - destruct (a_timer s); [|exact H]. apply li_checkRto. eapply li_same; [|exact H]. split; reflexivity.
  - eapply li_same; [|exact H]. split; reflexivity.
  - eapply li_same; [apply sw_cancel|]. eapply li_same; [|exact H]. split; reflexivity.
Qed.
Lemma li_run es : LI (a_run P C es).
Proof.
  unfold a_run. assert (H0 : LI (doRun P C (a_init P))).
  { unfold doRun. assert (H : LI (a_init P)) by (exists []; cbn; split; [constructor|now rewrite run_nil]). destruct (b_allReceived _).
    - eapply li_same; [|exact H]. destruct (sw_cancel (a_init P)) as [E1 E2]. split; [exact E1|exact E2].
    - eapply li_same; [apply sw_schedule|]. eapply li_same; [|exact H]. split; reflexivity. }
  revert H0. generalize (doRun P C (a_init P)). induction es as [|e es IH]; intros s H; cbn [fold_left]; [exact H|].
  apply IH. now apply li_step.
Qed.
Lemma rev_filter {A} (f : A -> bool) l : filter f (rev l) = rev (filter f l).
Proof. induction l as [|x l IH]; [reflexivity|]. cbn. rewrite filter_app, IH. cbn. destruct (f x); [reflexivity|apply app_nil_r]. Qed.
Lemma run_log es : exists ops, log (filter window_event (a_history (a_run P C es))) ops /\ a_cwnd (a_run P C es) = run ops.
Proof. unfold a_history. rewrite rev_filter. apply li_run. Qed.
End L.

Lemma aimd_log R o (r0 : R) rto sample backoff C es :
  let s := a_run (aimd_policy o r0 rto sample backoff) C es in
  exists ops, window_log (c_ignoreCongMarks C) (fun ops => to_int64 (w_cwnd (aimd_run o ops)))
    (filter window_event (a_history s)) ops /\ a_cwnd s = aimd_run o ops.
Proof.
  apply (run_log (aimd_policy o r0 rto sample backoff) C (fun _ => 0%Z) (aimd_run o)); [reflexivity| |]; intros; now rewrite run_snoc.
Qed.
Lemma cubic_log R cbrt pow3 o (r0 : R) srtt rto sample backoff C es :
  let s := a_run (cubic_policy cbrt pow3 o r0 srtt rto sample backoff) C es in
  exists ops, window_log (c_ignoreCongMarks C) (fun ops => to_int64 (cw_cwnd (cubic_run cbrt pow3 o ops)))
    (filter window_event (a_history s)) ops /\ a_cwnd s = cubic_run cbrt pow3 o ops.
Proof.
  apply (run_log (cubic_policy cbrt pow3 o r0 srtt rto sample backoff) C srtt (cubic_run cbrt pow3 o)); [reflexivity| |]; intros; now rewrite crun_snoc.
Qed.
