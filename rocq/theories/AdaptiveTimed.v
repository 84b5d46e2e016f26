(** The window of a running pipeline is the result of increases and decreases only; here with the
    times at which they happen. *)
From Verif Require Import Base BaseFacts PipelineBase AdaptiveModel AdaptiveWindow.
Local Open Scope Z_scope.
Local Ltac same3 := split; [reflexivity|split; reflexivity].

Section W.
Context {W R : Type}.
Variable P : policy W R.
Variable C : aconfig.
Notation st := (@astate W R).

(** [t]: the time; [l]: the announced window sizes, latest first *)
Inductive win_at : Z -> list Z -> W -> Prop :=
| win_init_at : win_at 0 [] (p_initW P)
| win_wait_at t u l w : win_at t l w -> t <= u -> win_at u l w
| win_incr_at t l w r : win_at t l w -> win_at t (p_floor P (p_incr P t r w) :: l) (p_incr P t r w)
| win_decr_at t l w : win_at t l w -> win_at t (p_floor P (p_decr P t w) :: l) (p_decr P t w).

Definition samew (s s' : st) : Prop := a_cwnd s' = a_cwnd s /\ wins (a_tr s') = wins (a_tr s) /\ a_now s' = a_now s.
Lemma samew_refl s : samew s s. Proof. same3. Qed.
Lemma samew_trans a b c : samew a b -> samew b c -> samew a c.
Proof. intros (H1 & H2 & H3) (H4 & H5 & H6). split; [congruence|split; congruence]. Qed.

Lemma sw_cancel s : samew s (cancel s).
Proof. unfold cancel. destruct (isStopping s); same3. Qed.
Lemma sw_onFailure r s : samew s (onFailure r s).
Proof. unfold onFailure. destruct (isStopping s); [apply samew_refl|]. destruct (sw_cancel s) as [H1 H2]. split; [exact H1|exact H2]. Qed.
Lemma sw_cancelGreater n s : samew s (cancelGreater n s).
Proof.
  split; [reflexivity|]. split; [|reflexivity]. unfold cancelGreater. cbn. rewrite wins_app.
  assert (E : forall l : list (N * seginfo), wins (map (fun e => OAbandon (fst e)) l) = []) by (induction l; auto). now rewrite E.
Qed.
Lemma sw_handleFail seg r s : samew s (handleFail seg r s).
Proof.
  unfold handleFail. destruct (isStopping s); [apply samew_refl|]. destruct (b_hasFbi (a_b s) && _); [apply sw_onFailure|].
  destruct (negb _); [|apply samew_refl]. cbv zeta. destruct (a_segs _) eqn:E.
  - eapply samew_trans; [|apply sw_onFailure]. same3.
  - match goal with |- samew _ (set_failReason _ (set_failedSeg _ (set_hasFailure _ (cancelGreater ?k ?x)))) =>
      eapply samew_trans; [|eapply samew_trans; [apply (sw_cancelGreater k x)|generalize (cancelGreater k x)]] end; [same3|].
    intros s1. same3.
Qed.
Lemma sw_express seg retx s : samew s (express P seg retx s).
Proof. unfold express. destruct retx; same3. Qed.
Lemma sw_sendInterest seg retx s : samew s (sendInterest P C seg retx s).
Proof.
  unfold sendInterest. destruct (isStopping s); [apply samew_refl|]. destruct (_ && _); [apply samew_refl|].
  destruct (_ && _); [apply samew_refl|]. destruct retx; [|apply sw_express].
  destruct (kget seg (a_retxCount s)); cbv zeta; [destruct (_ && _)|].
  - eapply samew_trans; [|apply sw_handleFail]. same3.
  - eapply samew_trans; [|apply sw_express]. same3.
  - eapply samew_trans; [|apply sw_express]. same3.
Qed.
Lemma sw_dropSkipped q : forall s, samew s (dropSkipped q s).
Proof.
  induction q as [|k q IH]; intros s; cbn [dropSkipped]; [same3|]. destruct (kmem k (a_segs s)); [same3|].
  eapply samew_trans; [|apply IH]. same3.
Qed.
Lemma sw_sendOne s : samew s (sendOne P C s).
Proof.
  unfold sendOne. cbv zeta. pose proof (sw_dropSkipped (a_retxq s) s) as H. set (s1 := dropSkipped _ s) in *.
  destruct (a_retxq s1); [destruct (b_getNext (a_b s1)) as [k b]|].
  all: eapply samew_trans; [exact H|]; eapply samew_trans; [|apply sw_sendInterest]; same3.
Qed.
Lemma sw_iter n : forall s, samew s (iter n (sendOne P C) s).
Proof. induction n as [|n IH]; intros s; cbn [iter]; [apply samew_refl|]. eapply samew_trans; [apply sw_sendOne|apply IH]. Qed.
Lemma sw_schedule s : samew s (schedulePackets P C s).
Proof. unfold schedulePackets. cbv zeta. eapply samew_trans; [|apply sw_iter]. destruct (_ <? _); same3. Qed.
Lemma sw_enqueue seg s : samew s (enqueueForRetransmission seg s).
Proof. unfold enqueueForRetransmission. cbv zeta. destruct (0 <? a_nInFlight s); destruct (kget seg _); same3. Qed.
Lemma sw_checkRto1 s has high seg : samew s (fst (fst (checkRto1 (s, has, high) seg))).
Proof.
  unfold checkRto1. destruct (kget seg (a_segs s)); [|apply samew_refl]. destruct (_ && _); [|apply samew_refl].
  cbv zeta. cbn [fst]. eapply samew_trans; [|apply sw_enqueue]. same3.
Qed.
Lemma sw_checkRto_fold l : forall acc, samew (fst (fst acc)) (fst (fst (fold_left checkRto1 l acc))).
Proof.
  induction l as [|k l IH]; intros [[s has] high]; cbn [fold_left]; [apply samew_refl|].
  eapply samew_trans; [apply sw_checkRto1|apply IH].
Qed.

Definition WI (s : st) : Prop := win_at (a_now s) (wins (a_tr s)) (a_cwnd s).
Lemma wi_same s s' : samew s s' -> WI s -> WI s'.
Proof. unfold WI. intros (-> & -> & ->). auto. Qed.
Lemma wi_decr s : WI s -> WI (decreaseWindow P s).
Proof. intros H. unfold WI, decreaseWindow. cbn. now apply win_decr_at. Qed.
Lemma wi_incr s : WI s -> WI (increaseWindow P s).
Proof. intros H. unfold WI, increaseWindow. cbn. now apply win_incr_at. Qed.
Lemma wi_recordTimeout seg s : WI s -> WI (recordTimeout P C seg s).
Proof.
  intros H. unfold recordTimeout. destruct (_ || _); [|exact H]. cbv zeta.
  assert (H' : WI (decreaseWindow P (set_recPoint (a_highInterest s) s))) by (apply wi_decr; eapply wi_same; [|exact H]; same3).
  eapply wi_same; [|exact H']. same3.
Qed.
Lemma wi_lost seg s : WI s ->
  WI (let s1 := enqueueForRetransmission seg s in if a_crashed s1 then s1 else schedulePackets P C (recordTimeout P C seg s1)).
Proof.
  intros H. cbv zeta. assert (H' : WI (enqueueForRetransmission seg s)) by (eapply wi_same; [apply sw_enqueue|exact H]).
  destruct (a_crashed _); [exact H'|]. eapply wi_same; [apply sw_schedule|]. now apply wi_recordTimeout.
Qed.
Lemma wi_checkRto order s : WI s -> WI (checkRto P C order s).
Proof.
  intros H. unfold checkRto. destruct (isStopping s); [exact H|].
  pose proof (sw_checkRto_fold (visit_order order (keys (a_segs s))) (s, false, 0%N)) as HS.
  destruct (fold_left _ _ _) as [[s1 has] high]. cbn [fst] in HS. assert (H1 : WI s1) by (eapply wi_same; [exact HS|exact H]).
  destruct (a_crashed s1); [exact H1|]. cbv zeta. destruct has.
  - eapply wi_same; [same3|]. eapply wi_same; [apply sw_schedule|]. now apply wi_recordTimeout.
  - eapply wi_same; [|exact H1]. same3.
Qed.
Lemma sw_learnFbi d s : samew s (fst (learnFbi d s)).
Proof.
  unfold learnFbi. destruct (b_hasFbi (a_b s)); [apply samew_refl|]. destruct (d_fbi d); [apply samew_refl| |same3].
  all: cbv zeta; match goal with |- context [cancelGreater ?k ?x] => pose proof (sw_cancelGreater k x) as HS; set (s1 := cancelGreater k x) in * end.
  all: destruct (_ && _); cbn [fst]; [eapply samew_trans; [|apply sw_onFailure]|]; exact HS.
Qed.
Lemma wi_adapt seg d s : WI s -> WI (adaptWindow P C seg d s).
Proof.
  intros H. unfold adaptWindow. destruct (d_mark d); cbv zeta; [|now apply wi_incr].
  destruct (negb _); [destruct (_ || _)|].
  - apply wi_decr. eapply wi_same; [|exact H]. same3.
  - eapply wi_same; [|exact H]. same3.
  - apply wi_incr. eapply wi_same; [|exact H]. same3.
Qed.
Lemma wi_handleData seg d s : WI s -> WI (handleData P C seg d s).
Proof.
  intros H. unfold handleData. destruct (isStopping s); [exact H|].
  pose proof (sw_learnFbi d s) as HS. destruct (learnFbi d s) as [s1 k]. cbn [fst] in HS.
  assert (H1 : WI s1) by (eapply wi_same; [exact HS|exact H]). destruct (negb k); [exact H1|].
  destruct (kget seg (a_segs s1)) as [i|]; [|exact H1]. cbv zeta.
  match goal with |- context [adaptWindow P C seg d ?x] => assert (H2 : WI (adaptWindow P C seg d x)); [|set (s2 := adaptWindow P C seg d x) in *] end.
  { apply wi_adapt. destruct (state_eqb _ _); (eapply wi_same; [|exact H1]; same3). }
  assert (H3 : WI (onData C seg d s2)).
  { unfold onData. cbv zeta. destruct (c_cbThrows C d); (eapply wi_same; [|exact H2]; same3). }
  set (s3 := onData C seg d s2) in *. destruct (a_crashed s3); [exact H3|].
  assert (H4 : forall rtt, WI (sampleRtt P seg i rtt s3)).
  { intros rtt. unfold sampleRtt. destruct (_ && _); [|exact H3]. cbv zeta. eapply wi_same; [|exact H3]. same3. }
  match goal with |- context [sampleRtt P seg i ?r s3] => specialize (H4 r); set (s4 := sampleRtt P seg i r s3) in * end.
  destruct (b_allReceived _).
  - eapply wi_same; [|exact H4]. match goal with |- samew _ (emit ODone (cancel ?x)) => destruct (sw_cancel x) as [E1 E2]; split; [exact E1|exact E2] end.
  - eapply wi_same; [apply sw_schedule|]. eapply wi_same; [|exact H4]. same3.
Qed.
Lemma wi_handleNack seg r s : WI s -> WI (handleNack P C seg r s).
Proof.
  intros H. unfold handleNack. destruct (isStopping s); [exact H|].
  destruct r; try exact H; try (eapply wi_same; [apply sw_handleFail|exact H]). now apply wi_lost.
Qed.
Lemma wi_expire seg s : WI s -> WI (handleLifetimeExpiration P C seg s).
Proof.
  intros H. unfold handleLifetimeExpiration. destruct (isStopping s); [exact H|]. cbv zeta. apply wi_lost.
  eapply wi_same; [|exact H]. same3.
Qed.
Lemma wi_step s e : WI s -> WI (a_step P C s e).
Proof.
  intros H. unfold a_step. destruct (a_crashed s); [exact H|].
  assert (HF : forall seg k, (forall s', WI s' -> WI (k s')) -> WI (fromFace seg k s)).
  { intros seg k Hk. unfold fromFace. destruct (kget seg (a_segs s)) as [i|]; [|exact H]. destruct (si_live i); [|exact H].
    apply Hk. eapply wi_same; [|exact H]. same3. }
  assert (HE : forall o s', wins [o] = [] -> WI s' -> WI (emit o s')).
  { intros o s' Ho. unfold WI, emit. cbn -[wins]. change (o :: a_tr s') with ([o] ++ a_tr s'). rewrite wins_app, Ho. auto. }
  destruct e.
  - apply HF. intros s' H'. apply wi_handleData. now apply HE.
  - apply HF. intros s' H'. apply wi_handleNack. now apply HE.
  - apply HF. intros s' H'. apply wi_expire. now apply HE.
  - destruct (a_timer s); [|exact H]. apply wi_checkRto. eapply wi_same; [|exact H]. same3.
  - unfold WI in *. cbn. apply (win_wait_at (a_now s)); [exact H|lia].
  - eapply wi_same; [apply sw_cancel|]. now apply HE.
Qed.
Lemma wi_run es : WI (a_run P C es).
Proof.
  unfold a_run. assert (H0 : WI (doRun P C (a_init P))).
  { unfold doRun. assert (H : WI (a_init P)) by (unfold WI; cbn; constructor). destruct (b_allReceived _).
    - eapply wi_same; [|exact H]. destruct (sw_cancel (a_init P)) as [E1 E2]. split; [exact E1|exact E2].
    - eapply wi_same; [apply sw_schedule|]. eapply wi_same; [|exact H]. same3. }
  revert H0. generalize (doRun P C (a_init P)). induction es as [|e es IH]; intros s H; cbn [fold_left]; [exact H|].
  apply IH. now apply wi_step.
Qed.

Lemma now_zero : a_now (a_run P C []) = 0.
Proof.
  unfold a_run. cbn [fold_left]. unfold doRun. destruct (b_allReceived _).
  - destruct (sw_cancel (a_init P)) as (_ & _ & E). exact E.
  - match goal with |- a_now (schedulePackets P C ?x) = 0 => destruct (sw_schedule x) as (_ & _ & ->) end. reflexivity.
Qed.
(** an invariant of the policy that may depend on the number of changes so far and the time *)
Lemma win_inv_at (Q : nat -> Z -> W -> Prop) :
  Q 0%nat 0 (p_initW P) -> (forall n t u w, Q n t w -> t <= u -> Q n u w) ->
  (forall n t r w, Q n t w -> Q (S n) t (p_incr P t r w)) -> (forall n t w, Q n t w -> Q (S n) t (p_decr P t w)) ->
  forall es, Q (length (wins (a_tr (a_run P C es)))) (a_now (a_run P C es)) (a_cwnd (a_run P C es)) /\
    forall z, In z (wins (a_tr (a_run P C es))) ->
      exists n t w, (n <= length (wins (a_tr (a_run P C es))))%nat /\ t <= a_now (a_run P C es) /\ Q n t w /\ z = p_floor P w.
Proof.
  intros Q0 QW QI QD es. pose proof (wi_run es) as H. unfold WI in H.
  induction H as [|t u l w H [IH1 IH2] Htu|t l w r H [IH1 IH2]|t l w H [IH1 IH2]]; cbn [length].
  - split; [exact Q0|]. intros z [].
  - split; [now apply (QW _ t)|]. intros z Hz. destruct (IH2 z Hz) as (n & v & w' & Hn & Hv & HQ & E). exists n, v, w'. split; [lia|]. split; [lia|auto].
  - split; [now apply QI|]. intros z [<-|Hz]; [exists (S (length l)), t, (p_incr P t r w); split; [lia|split; [lia|split; [now apply QI|reflexivity]]]|].
    destruct (IH2 z Hz) as (n & v & w' & Hn & Hv & HQ & E). exists n, v, w'. split; [lia|]. split; [lia|auto].
  - split; [now apply QD|]. intros z [<-|Hz]; [exists (S (length l)), t, (p_decr P t w); split; [lia|split; [lia|split; [now apply QD|reflexivity]]]|].
    destruct (IH2 z Hz) as (n & v & w' & Hn & Hv & HQ & E). exists n, v, w'. split; [lia|]. split; [lia|auto].
Qed.
End W.
