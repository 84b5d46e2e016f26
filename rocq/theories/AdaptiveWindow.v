(** The window of a running pipeline is the result of increases and decreases only, and
    every change is visible. *)
From Verif Require Import Base BaseFacts PipelineBase AdaptiveModel.

Definition wins (t : list pobs) : list Z := flat_map (fun o => match o with OWindow w => [w] | _ => [] end) t.
Lemma wins_app a b : wins (a ++ b) = wins a ++ wins b.
Proof. apply flat_map_app. Qed.

Section W.
Context {W R : Type}.
Variable P : policy W R.
Variable C : aconfig.
Notation st := (@astate W R).

(** [l]: the announced window sizes, latest first *)
Inductive win_run : list Z -> W -> Prop :=
| win_init : win_run [] (p_initW P)
| win_incr l w now r : win_run l w -> win_run (p_floor P (p_incr P now r w) :: l) (p_incr P now r w)
| win_decr l w now : win_run l w -> win_run (p_floor P (p_decr P now w) :: l) (p_decr P now w).

Definition samew (s s' : st) : Prop := a_cwnd s' = a_cwnd s /\ wins (a_tr s') = wins (a_tr s).
Lemma samew_refl s : samew s s. Proof. split; reflexivity. Qed.
Lemma samew_trans a b c : samew a b -> samew b c -> samew a c.
Proof. intros [H1 H2] [H3 H4]. split; congruence. Qed.

Lemma sw_cancel s : samew s (cancel s).
Proof. unfold cancel. destruct (isStopping s); split; reflexivity. Qed.
Lemma sw_onFailure r s : samew s (onFailure r s).
Proof. unfold onFailure. destruct (isStopping s); [apply samew_refl|]. destruct (sw_cancel s) as [H1 H2]. split; [exact H1|exact H2]. Qed.
Lemma sw_cancelGreater n s : samew s (cancelGreater n s).
Proof.
  split; [reflexivity|]. unfold cancelGreater. cbn. rewrite wins_app.
  assert (E : forall l : list (N * seginfo), wins (map (fun e => OAbandon (fst e)) l) = []) by (induction l; auto). now rewrite E.
Qed.
Lemma sw_handleFail seg r s : samew s (handleFail seg r s).
Proof.
  unfold handleFail. destruct (isStopping s); [apply samew_refl|]. destruct (b_hasFbi (a_b s) && _); [apply sw_onFailure|].
  destruct (negb _); [|apply samew_refl]. cbv zeta. destruct (a_segs _) eqn:E.
  - eapply samew_trans; [|apply sw_onFailure]. split; reflexivity.
  - match goal with |- samew _ (set_failReason _ (set_failedSeg _ (set_hasFailure _ (cancelGreater ?k ?x)))) =>
      pose proof (sw_cancelGreater k x) as [H1 H2]; split; [exact H1|exact H2] end.
Qed.
Lemma sw_express seg retx s : samew s (express P seg retx s).
Proof. unfold express. destruct retx; split; reflexivity. Qed.
Lemma sw_sendInterest seg retx s : samew s (sendInterest P C seg retx s).
Proof.
  unfold sendInterest. destruct (isStopping s); [apply samew_refl|]. destruct (_ && _); [apply samew_refl|].
  destruct (_ && _); [apply samew_refl|]. destruct retx; [|apply sw_express].
  destruct (kget seg (a_retxCount s)); cbv zeta; [destruct (_ && _)|].
  - eapply samew_trans; [|apply sw_handleFail]. split; reflexivity.
  - eapply samew_trans; [|apply sw_express]. split; reflexivity.
  - eapply samew_trans; [|apply sw_express]. split; reflexivity.
Qed.
Lemma sw_dropSkipped q : forall s, samew s (dropSkipped q s).
Proof.
  induction q as [|k q IH]; intros s; cbn [dropSkipped]; [split; reflexivity|]. destruct (kmem k (a_segs s)); [split; reflexivity|].
  eapply samew_trans; [|apply IH]. split; reflexivity.
Qed.
Lemma sw_sendOne s : samew s (sendOne P C s).
Proof.
  unfold sendOne. cbv zeta. pose proof (sw_dropSkipped (a_retxq s) s) as H. set (s1 := dropSkipped _ s) in *.
  destruct (a_retxq s1); [destruct (b_getNext (a_b s1)) as [k b]|].
  all: eapply samew_trans; [exact H|]; eapply samew_trans; [|apply sw_sendInterest]; split; reflexivity.
Qed.
Lemma sw_iter n : forall s, samew s (iter n (sendOne P C) s).
Proof. induction n as [|n IH]; intros s; cbn [iter]; [apply samew_refl|]. eapply samew_trans; [apply sw_sendOne|apply IH]. Qed.
Lemma sw_schedule s : samew s (schedulePackets P C s).
Proof. unfold schedulePackets. cbv zeta. eapply samew_trans; [|apply sw_iter]. destruct (_ <? _); split; reflexivity. Qed.
Lemma sw_enqueue seg s : samew s (enqueueForRetransmission seg s).
Proof. unfold enqueueForRetransmission. cbv zeta. destruct (0 <? a_nInFlight s); destruct (kget seg _); split; reflexivity. Qed.
Lemma sw_checkRto1 s has high seg : samew s (fst (fst (checkRto1 (s, has, high) seg))).
Proof.
  unfold checkRto1. destruct (kget seg (a_segs s)); [|apply samew_refl]. destruct (_ && _); [|apply samew_refl].
  cbv zeta. cbn [fst]. eapply samew_trans; [|apply sw_enqueue]. split; reflexivity.
Qed.
Lemma sw_checkRto_fold l : forall acc, samew (fst (fst acc)) (fst (fst (fold_left checkRto1 l acc))).
Proof.
  induction l as [|k l IH]; intros [[s has] high]; cbn [fold_left]; [apply samew_refl|].
  eapply samew_trans; [apply sw_checkRto1|apply IH].
Qed.

Definition WI (s : st) : Prop := win_run (wins (a_tr s)) (a_cwnd s).
Lemma wi_same s s' : samew s s' -> WI s -> WI s'.
Proof. unfold WI. intros [-> ->]. auto. Qed.
Lemma wi_decr s : WI s -> WI (decreaseWindow P s).
Proof. intros H. unfold WI, decreaseWindow. cbn. now constructor. Qed.
Lemma wi_incr s : WI s -> WI (increaseWindow P s).
Proof. intros H. unfold WI, increaseWindow. cbn. now constructor. Qed.
Lemma wi_recordTimeout seg s : WI s -> WI (recordTimeout P C seg s).
Proof.
  intros H. unfold recordTimeout. destruct (_ || _); [|exact H]. cbv zeta.
  assert (H' : WI (decreaseWindow P (set_recPoint (a_highInterest s) s))) by (apply wi_decr; eapply wi_same; [|exact H]; split; reflexivity).
  eapply wi_same; [|exact H']. split; reflexivity.
Qed.
Lemma wi_lost seg s : WI s ->
  WI (let s1 := enqueueForRetransmission seg s in if a_crashed s1 then s1 else schedulePackets P C (recordTimeout P C seg s1)).
Proof.
  intros H. cbv zeta. assert (H' : WI (enqueueForRetransmission seg s)) by (eapply wi_same; [apply sw_enqueue|exact H]).
  destruct (a_crashed _); [exact H'|]. eapply wi_same; [apply sw_schedule|]. now apply wi_recordTimeout.
Qed.
Lemma wi_checkRto order s : WI s -> WI (checkRto P C order s).
Proof.
  intros H. unfold checkRto. destruct (isStopping s); [exact H|].
  pose proof (sw_checkRto_fold (visit_order order (keys (a_segs s))) (s, false, 0%N)) as HS.
  destruct (fold_left _ _ _) as [[s1 has] high]. cbn [fst] in HS. assert (H1 : WI s1) by (eapply wi_same; [exact HS|exact H]).
  destruct (a_crashed s1); [exact H1|]. cbv zeta. destruct has.
  - eapply wi_same; [split; reflexivity|]. eapply wi_same; [apply sw_schedule|]. now apply wi_recordTimeout.
  - eapply wi_same; [|exact H1]. split; reflexivity.
Qed.
Lemma sw_learnFbi d s : samew s (fst (learnFbi d s)).
Proof.
  unfold learnFbi. destruct (b_hasFbi (a_b s)); [apply samew_refl|]. destruct (d_fbi d); [apply samew_refl| |split; reflexivity].
  all: cbv zeta; match goal with |- context [cancelGreater ?k ?x] => pose proof (sw_cancelGreater k x) as HS; set (s1 := cancelGreater k x) in * end.
  all: destruct (_ && _); cbn [fst]; [eapply samew_trans; [|apply sw_onFailure]|]; exact HS.
Qed.
Lemma wi_adapt seg d s : WI s -> WI (adaptWindow P C seg d s).
Proof.
  intros H. unfold adaptWindow. destruct (d_mark d); cbv zeta; [|now apply wi_incr].
  destruct (negb _); [destruct (_ || _)|].
  - apply wi_decr. eapply wi_same; [|exact H]. split; reflexivity.
  - eapply wi_same; [|exact H]. split; reflexivity.
  - apply wi_incr. eapply wi_same; [|exact H]. split; reflexivity.
Qed.
Lemma wi_handleData seg d s : WI s -> WI (handleData P C seg d s).
Proof.
  intros H. unfold handleData. destruct (isStopping s); [exact H|].
  pose proof (sw_learnFbi d s) as HS. destruct (learnFbi d s) as [s1 k]. cbn [fst] in HS.
  assert (H1 : WI s1) by (eapply wi_same; [exact HS|exact H]). destruct (negb k); [exact H1|].
  destruct (kget seg (a_segs s1)) as [i|]; [|exact H1]. cbv zeta.
  match goal with |- context [adaptWindow P C seg d ?x] => assert (H2 : WI (adaptWindow P C seg d x)); [|set (s2 := adaptWindow P C seg d x) in *] end.
  { apply wi_adapt. destruct (state_eqb _ _); (eapply wi_same; [|exact H1]; split; reflexivity). }
  assert (H3 : WI (onData C seg d s2)).
  { unfold onData. cbv zeta. destruct (c_cbThrows C d); (eapply wi_same; [|exact H2]; split; reflexivity). }
  set (s3 := onData C seg d s2) in *. destruct (a_crashed s3); [exact H3|].
  assert (H4 : forall rtt, WI (sampleRtt P seg i rtt s3)).
  { intros rtt. unfold sampleRtt. destruct (_ && _); [|exact H3]. cbv zeta. eapply wi_same; [|exact H3]. split; reflexivity. }
  match goal with |- context [sampleRtt P seg i ?r s3] => specialize (H4 r); set (s4 := sampleRtt P seg i r s3) in * end.
  destruct (b_allReceived _).
  - eapply wi_same; [|exact H4]. match goal with |- samew _ (emit ODone (cancel ?x)) => destruct (sw_cancel x) as [E1 E2]; split; [exact E1|exact E2] end.
  - eapply wi_same; [apply sw_schedule|]. eapply wi_same; [|exact H4]. split; reflexivity.
Qed.
Lemma wi_handleNack seg r s : WI s -> WI (handleNack P C seg r s).
Proof.
  intros H. unfold handleNack. destruct (isStopping s); [exact H|].
  destruct r; try exact H; try (eapply wi_same; [apply sw_handleFail|exact H]). now apply wi_lost.
Qed.
Lemma wi_expire seg s : WI s -> WI (handleLifetimeExpiration P C seg s).
Proof.
  intros H. unfold handleLifetimeExpiration. destruct (isStopping s); [exact H|]. cbv zeta. apply wi_lost.
  eapply wi_same; [|exact H]. split; reflexivity.
Qed.
Lemma wi_step s e : WI s -> WI (a_step P C s e).
Proof.
  intros H. unfold a_step. destruct (a_crashed s); [exact H|].
  assert (HF : forall seg k, (forall s', WI s' -> WI (k s')) -> WI (fromFace seg k s)).
  { intros seg k Hk. unfold fromFace. destruct (kget seg (a_segs s)) as [i|]; [|exact H]. destruct (si_live i); [|exact H].
    apply Hk. eapply wi_same; [|exact H]. split; reflexivity. }
  assert (HE : forall o s', wins [o] = [] -> WI s' -> WI (emit o s')).
  { intros o s' Ho. unfold WI, emit. cbn -[wins]. change (o :: a_tr s') with ([o] ++ a_tr s'). rewrite wins_app, Ho. auto. }
  destruct e.
  - apply HF. intros s' H'. apply wi_handleData. now apply HE.
  - apply HF. intros s' H'. apply wi_handleNack. now apply HE.
  - apply HF. intros s' H'. apply wi_expire. now apply HE.
  - destruct (a_timer s); [|exact H]. apply wi_checkRto. eapply wi_same; [|exact H]. split; reflexivity.
  - eapply wi_same; [|exact H]. split; reflexivity.
  - eapply wi_same; [apply sw_cancel|]. now apply HE.
Qed.
Lemma wi_run es : WI (a_run P C es).
Proof.
  unfold a_run. assert (H0 : WI (doRun P C (a_init P))).
  { unfold doRun. assert (H : WI (a_init P)) by (unfold WI; cbn; constructor). destruct (b_allReceived _).
    - eapply wi_same; [|exact H]. destruct (sw_cancel (a_init P)) as [E1 E2]. split; [exact E1|exact E2].
    - eapply wi_same; [apply sw_schedule|]. eapply wi_same; [|exact H]. split; reflexivity. }
  revert H0. generalize (doRun P C (a_init P)). induction es as [|e es IH]; intros s H; cbn [fold_left]; [exact H|].
  apply IH. now apply wi_step.
Qed.

(** an invariant of the policy that may depend on the number of changes so far *)
Lemma win_inv (Q : nat -> W -> Prop) :
  Q 0%nat (p_initW P) -> (forall n now r w, Q n w -> Q (S n) (p_incr P now r w)) -> (forall n now w, Q n w -> Q (S n) (p_decr P now w)) ->
  forall es, Q (length (wins (a_tr (a_run P C es)))) (a_cwnd (a_run P C es)) /\
    forall z, In z (wins (a_tr (a_run P C es))) -> exists n w, (n <= length (wins (a_tr (a_run P C es))))%nat /\ Q n w /\ z = p_floor P w.
Proof.
  intros Q0 QI QD es. pose proof (wi_run es) as H. unfold WI in H.
  induction H as [|l w now r H [IH1 IH2]|l w now H [IH1 IH2]]; cbn [length].
  - split; [exact Q0|]. intros z [].
  - split; [now apply QI|]. intros z [<-|Hz]; [eexists _, _; split; [|split; [apply QI, IH1|reflexivity]]; lia|].
    destruct (IH2 z Hz) as (n & w' & Hn & HQ & E). exists n, w'. split; [lia|auto].
  - split; [now apply QD|]. intros z [<-|Hz]; [eexists _, _; split; [|split; [apply QD, IH1|reflexivity]]; lia|].
    destruct (IH2 z Hz) as (n & w' & Hn & HQ & E). exists n, w'. split; [lia|auto].
Qed.
End W.
