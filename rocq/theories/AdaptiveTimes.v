(** Proofs about the times that the adaptive pipelines measure and wait. *)
From Verif Require Import Base BaseFacts PipelineBase PipelineSpec AdaptiveModel AdaptiveProofs AdaptiveInv AdaptiveInv2 AdaptiveProgress
  AdaptiveFlight AdaptiveTheorems AdaptiveEnd AdaptiveLive ChunksTextModel ChunksTextSpec ChunksTextProofs TimesSpec.
From Coq Require Import List.
Import ListNotations.
Local Open Scope Z_scope.

Section T.
Context {W R : Type}.
Variable P : policy W R.
Variable C : aconfig.
Notation st := (@astate W R).
Implicit Types s : st.
Notation stopping s := (b_stopping (a_b s)).

(** one observation and the estimator *)
Definition est1 (o : pobs) (r : R) : R :=
  match o with ORttSample _ rtt n => p_sample P rtt n r | ODecrLoss _ => p_backoff P r | _ => r end.
Definition nosend (o : pobs) : bool := match o with OInterest _ _ => false | _ => true end.
Definition plain (o : pobs) : bool := match o with ORttSample _ _ _ | ODecrLoss _ | ORto _ => false | _ => true end.
(** what an observation says about the times *)
Definition right (e : aevent) s (o : pobs) : Prop :=
  match o with
  | ORttSample k rtt _ => (exists d, e = AeData k d) /\ exists i, kget k (a_segs s) = Some i /\ rtt = a_now s - si_timeSent i
  | ORto k => (exists order, e = AeRto order) /\ exists i, kget k (a_segs s) = Some i /\ si_rto i < a_now s - si_timeSent i
  | _ => True
  end.
Definition kept s s' : Prop := forall k i', kget k (a_segs s') = Some i' ->
  exists i, kget k (a_segs s) = Some i /\ si_timeSent i' = si_timeSent i /\ si_rto i' = si_rto i.

(** no Interest is sent *)
Definition still (e : aevent) s s' : Prop :=
  a_now s' = a_now s /\ kept s s' /\
  exists new, a_tr s' = new ++ a_tr s /\ Forall (fun o => nosend o = true /\ right e s o) new /\ a_rtt s' = fold_right est1 (a_rtt s) new.
(** Interests are sent *)
Definition sending s s' : Prop :=
  a_now s' = a_now s /\ a_rtt s' = a_rtt s /\
  exists new, a_tr s' = new ++ a_tr s /\ Forall (fun o => plain o = true) new /\
    forall k i', kget k (a_segs s') = Some i' ->
      (exists i, kget k (a_segs s) = Some i /\ si_timeSent i' = si_timeSent i /\ si_rto i' = si_rto i /\ count (is_send k) new = 0) \/
      (si_timeSent i' = a_now s /\ si_rto i' = p_rto P (a_rtt s) /\ 0 < count (is_send k) new).

Lemma kept_trans a b c : kept a b -> kept b c -> kept a c.
Proof.
  intros H1 H2 k i Hi. destruct (H2 k i Hi) as (i1 & E1 & E2 & E3). destruct (H1 k i1 E1) as (i2 & E4 & E5 & E6).
  exists i2. repeat split; congruence.
Qed.
Lemma kept_same s s' : a_segs s' = a_segs s -> kept s s'.
Proof. intros E k i Hi. exists i. rewrite <- E. auto. Qed.
Lemma right_back e s s' o : a_now s' = a_now s -> kept s s' -> right e s' o -> right e s o.
Proof.
  intros Hn Hk. destruct o; cbn; auto; intros [H1 (i & Hi & Hr)]; (split; [exact H1|]); destruct (Hk _ _ Hi) as (i0 & E0 & E1 & E2);
    exists i0; (split; [exact E0|]); rewrite <- E1, <- Hn; try rewrite <- E2; exact Hr.
Qed.
Lemma still_trans e a b c : still e a b -> still e b c -> still e a c.
Proof.
  intros (N1 & K1 & l1 & E1 & F1 & R1) (N2 & K2 & l2 & E2 & F2 & R2).
  split; [congruence|]. split; [eapply kept_trans; eauto|].
  exists (l2 ++ l1). split; [now rewrite E2, E1, app_assoc|]. split.
  - apply Forall_app. split; [|exact F1]. eapply Forall_impl; [|exact F2]. intros o [H1 H2]. split; [exact H1|].
    eapply right_back; eauto.
  - now rewrite fold_right_app, <- R1.
Qed.
Lemma still_same e s s' : a_now s' = a_now s -> a_segs s' = a_segs s -> a_tr s' = a_tr s ->
  a_rtt s' = a_rtt s -> still e s s'.
Proof.
  intros. split; [assumption|]. split; [now apply kept_same|]. exists []. cbn. auto.
Qed.
Lemma still_refl e s : still e s s. Proof. now apply still_same. Qed.
Lemma still_one e o s s' : a_now s' = a_now s -> a_segs s' = a_segs s -> a_tr s' = o :: a_tr s ->
  a_rtt s' = est1 o (a_rtt s) -> nosend o = true -> right e s o -> still e s s'.
Proof.
  intros. split; [assumption|]. split; [now apply kept_same|]. exists [o]. cbn. auto.
Qed.
Lemma sending_trans a b c : sending a b -> sending b c -> sending a c.
Proof.
  intros (N1 & R1 & l1 & E1 & F1 & K1) (N2 & R2 & l2 & E2 & F2 & K2).
  split; [congruence|]. split; [congruence|].
  exists (l2 ++ l1). split; [now rewrite E2, E1, app_assoc|]. split; [apply Forall_app; auto|].
  intros k i Hi. rewrite count_app. pose proof (count_nonneg (is_send k) l1). pose proof (count_nonneg (is_send k) l2).
  destruct (K2 k i Hi) as [(i1 & H1 & H2 & H3 & H4)|(H1 & H2 & H3)].
  - destruct (K1 k i1 H1) as [(i0 & G1 & G2 & G3 & G4)|(G1 & G2 & G3)].
    + left. exists i0. repeat split; try congruence. lia.
    + right. repeat split; try congruence. lia.
  - right. repeat split; try congruence. lia.
Qed.
Lemma sending_quiet s s' l : a_now s' = a_now s -> a_rtt s' = a_rtt s -> a_tr s' = l ++ a_tr s ->
  Forall (fun o => plain o = true /\ nosend o = true) l -> kept s s' -> sending s s'.
Proof.
  intros Hn Hr Hl HF Hk. split; [exact Hn|]. split; [exact Hr|]. exists l. split; [exact Hl|]. split.
  - eapply Forall_impl; [|exact HF]. now intros o [H _].
  - intros k i Hi. left. destruct (Hk k i Hi) as (i0 & H1 & H2 & H3). exists i0. repeat split; auto.
    clear - HF. induction HF as [|o l [_ H] HF IH]; [reflexivity|]. rewrite count_cons, IH. destruct o; cbn in *; try discriminate; reflexivity.
Qed.
Lemma sending_same s s' : a_now s' = a_now s -> a_segs s' = a_segs s -> a_tr s' = a_tr s ->
  a_rtt s' = a_rtt s -> sending s s'.
Proof.
  intros. apply (sending_quiet s s' []); auto; now apply kept_same.
Qed.
Lemma sending_refl s : sending s s. Proof. now apply sending_same. Qed.

(** ** ends *)
Lemma kept_nil s s' : a_segs s' = [] -> kept s s'.
Proof. intros E k i. rewrite E. discriminate. Qed.
Lemma still_cancel e s : still e s (cancel s).
Proof.
  unfold cancel. destruct (isStopping s); [apply still_refl|].
  split; [reflexivity|]. split; [now apply kept_nil|]. exists []. cbn. auto.
Qed.
Ltac one := eapply still_one; reflexivity || exact I.
Lemma still_onFailure e r s : still e s (onFailure r s).
Proof. unfold onFailure. destruct (isStopping s); [apply still_refl|]. eapply still_trans; [apply still_cancel|one]. Qed.
Lemma kept_filter n s s' : a_segs s' = filter (fun e => negb (N.ltb n (fst e))) (a_segs s) -> kept s s'.
Proof.
  intros E k i. rewrite E, (kget_filter (fun x => negb (N.ltb n x))). destruct (negb _); [|discriminate]. intros H. eauto.
Qed.
Lemma kept_kdel k s s' : a_segs s' = kdel k (a_segs s) -> kept s s'.
Proof. intros E k' i. rewrite E, kget_kdel. destruct (N.eqb _ _); [discriminate|]. intros H. eauto. Qed.
Lemma kept_kset k i j s s' : kget k (a_segs s) = Some i -> si_timeSent j = si_timeSent i -> si_rto j = si_rto i ->
  a_segs s' = kset k j (a_segs s) -> kept s s'.
Proof.
  intros H1 H2 H3 E k' i'. rewrite E, kget_kset. destruct (N.eqb_spec k' k) as [->|]; [|eauto].
  intros H. injection H as <-. eauto.
Qed.
Lemma still_cancelGreater e n s : still e s (cancelGreater n s).
Proof.
  unfold cancelGreater. split; [reflexivity|]. split; [now apply (kept_filter n)|].
  eexists. split; [reflexivity|]. cbn [a_rtt set_nInFlight set_segs set_tr].
  generalize (filter (fun e => N.ltb n (fst e)) (a_segs s)). intros l. induction l as [|x l IH]; [split; [constructor|reflexivity]|]. cbn [map fold_right est1].
  destruct IH. split; [constructor; [cbn; auto|assumption]|assumption].
Qed.
Lemma still_sending (s s' : st) : (forall e, still e s s') -> a_rtt s' = a_rtt s ->
  (exists new, a_tr s' = new ++ a_tr s /\ Forall (fun o => plain o = true) new) -> sending s s'.
Proof.
  intros H Hr (l & El & Fl). destruct (H AeCancel) as (H1 & H3 & l' & E' & F' & _).
  assert (l' = l) as -> by (apply app_inv_tail with (a_tr s); congruence).
  apply (sending_quiet s s' l); auto. rewrite Forall_forall in *. intros o Ho. split; [now apply Fl|now apply F'].
Qed.
Lemma sending_onFailure r s : sending s (onFailure r s).
Proof.
  apply still_sending; [intros; apply still_onFailure|..]; unfold onFailure, cancel; destruct (isStopping s); try reflexivity.
  - now exists [].
  - exists [OFail r]. cbn. auto.
Qed.
Lemma sending_cancelGreater n s : sending s (cancelGreater n s).
Proof.
  apply still_sending; [intros; apply still_cancelGreater|reflexivity|]. eexists. split; [reflexivity|].
  generalize (filter (fun e => N.ltb n (fst e)) (a_segs s)). intros l. induction l as [|x l IH]; constructor; auto.
Qed.
Lemma sending_handleFail seg r s : sending s (handleFail seg r s).
Proof.
  unfold handleFail. destruct (isStopping s); [apply sending_refl|]. destruct (b_hasFbi (a_b s) && _); [apply sending_onFailure|].
  destruct (negb _); [|apply sending_refl]. cbv zeta.
  set (x := set_nInFlight _ _). assert (Hx : sending s x).
  { apply (sending_quiet s x [OAbandon seg]); try reflexivity; [repeat constructor|now apply (kept_kdel seg)]. }
  destruct (a_segs x) eqn:E.
  - eapply sending_trans; [exact Hx|apply sending_onFailure].
  - eapply sending_trans; [exact Hx|]. eapply sending_trans; [apply (sending_cancelGreater seg)|]. now apply sending_same.
Qed.
Lemma sending_express seg retx s : sending s (express P seg retx s).
Proof.
  split; [unfold express; destruct retx; reflexivity|].
  split; [unfold express; destruct retx; reflexivity|].
  exists [OInterest seg retx]. split; [unfold express; destruct retx; reflexivity|]. split; [repeat constructor|].
  intros k i Hi. assert (E : a_segs (express P seg retx s) =
    kset seg (SegInfo true (a_now s) (p_rto P (a_rtt s)) (if retx then Retransmitted else FirstTimeSent)) (a_segs s))
    by (unfold express; destruct retx; reflexivity).
  rewrite E, kget_kset in Hi. rewrite count_cons. cbn [is_send]. rewrite N.eqb_sym. destruct (N.eqb_spec k seg) as [->|Hne].
  - injection Hi as <-. right. cbn. repeat split; lia.
  - left. exists i. repeat split; auto.
Qed.
Lemma sending_sendInterest seg retx s : sending s (sendInterest P C seg retx s).
Proof.
  unfold sendInterest. destruct (isStopping s); [apply sending_refl|]. destruct (_ && _); [apply sending_refl|].
  destruct (_ && _); [apply sending_refl|]. destruct retx; [|apply sending_express].
  destruct (kget seg (a_retxCount s)); cbv zeta; [destruct (_ && _)|].
  - eapply sending_trans; [|apply sending_handleFail]. now apply sending_same.
  - eapply sending_trans; [|apply sending_express]. now apply sending_same.
  - eapply sending_trans; [|apply sending_express]. now apply sending_same.
Qed.
Lemma sending_one o s s' : a_now s' = a_now s -> a_segs s' = a_segs s -> a_tr s' = o :: a_tr s ->
  a_rtt s' = a_rtt s -> plain o = true -> nosend o = true -> sending s s'.
Proof.
  intros. apply (sending_quiet s s' [o]); auto; now apply kept_same.
Qed.
Lemma sending_dropSkipped q : forall s, sending s (dropSkipped q s).
Proof.
  induction q as [|k q IH]; intros s; cbn [dropSkipped]; [now apply sending_same|]. destruct (kmem k (a_segs s)); [now apply sending_same|].
  eapply sending_trans; [|apply IH]. eapply sending_one; reflexivity.
Qed.
Lemma sending_sendOne s : sending s (sendOne P C s).
Proof.
  unfold sendOne. cbv zeta. pose proof (sending_dropSkipped (a_retxq s) s) as H. set (s1 := dropSkipped _ s) in *.
  destruct (a_retxq s1); [destruct (b_getNext (a_b s1)) as [k b] eqn:Eb|].
  all: eapply sending_trans; [exact H|]; eapply sending_trans; [|apply sending_sendInterest].
  2: now apply sending_same.
  unfold b_getNext in Eb. injection Eb as _ <-. apply (sending_quiet s1 _ []); try reflexivity; [constructor|now apply kept_same].
Qed.
Lemma sending_iter n : forall s, sending s (iter n (sendOne P C) s).
Proof. induction n as [|n IH]; intros s; cbn [iter]; [apply sending_refl|]. eapply sending_trans; [apply sending_sendOne|apply IH]. Qed.
Lemma sending_schedule s : sending s (schedulePackets P C s).
Proof.
  unfold schedulePackets. cbv zeta. eapply sending_trans; [|apply sending_iter].
  destruct (_ <? _); [eapply sending_one; reflexivity|apply sending_refl].
Qed.

(** ** an event: a phase without sending, then a phase of sending *)
Definition react (e : aevent) s s' : Prop := exists m : st, still e s m /\ sending m s'.
Lemma react_still e s s' : still e s s' -> react e s s'.
Proof. intros H. exists s'. split; [exact H|apply sending_refl]. Qed.
Lemma still_react e a b c : still e a b -> react e b c -> react e a c.
Proof. intros H (m & H1 & H2). exists m. split; [eapply still_trans; eauto|exact H2]. Qed.
Lemma react_sending e s s' : sending s s' -> react e s s'.
Proof. intros H. exists s. split; [apply still_refl|exact H]. Qed.

Lemma still_recordTimeout e seg s : still e s (recordTimeout P C seg s).
Proof.
  unfold recordTimeout. destruct (_ || _); [|apply still_refl]. cbv zeta.
  split; [reflexivity|]. split; [now apply kept_same|].
  eexists [ODecrLoss seg; OWindow _]. split; [reflexivity|]. split; [repeat constructor|reflexivity].
Qed.
Lemma still_enqueue e seg s : still e s (enqueueForRetransmission seg s).
Proof.
  unfold enqueueForRetransmission. cbv zeta. eapply still_trans with (if 0 <? a_nInFlight s then s else emit OAssert s).
  { destruct (0 <? a_nInFlight s); [apply still_refl|one]. }
  generalize (if 0 <? a_nInFlight s then s else emit OAssert s). intros s1. destruct (kget seg _) as [i|] eqn:Ei; [|one].
  split; [reflexivity|]. split.
  - eapply (kept_kset seg i); [exact Ei| | |reflexivity]; reflexivity.
  - exists []. cbn. auto.
Qed.
Lemma react_lost e seg s : react e s (let s := enqueueForRetransmission seg s in if a_crashed s then s else schedulePackets P C (recordTimeout P C seg s)).
Proof.
  cbv zeta. eapply still_react; [apply still_enqueue|]. destruct (a_crashed _); [apply react_still, still_refl|].
  eapply still_react; [apply still_recordTimeout|]. apply react_sending, sending_schedule.
Qed.
Lemma still_checkRto1 order s has high seg : still (AeRto order) s (fst (fst (checkRto1 (s, has, high) seg))).
Proof.
  unfold checkRto1. destruct (kget seg (a_segs s)) as [i|] eqn:Ei; [|apply still_refl]. destruct (_ && _) eqn:E; [|apply still_refl].
  cbv zeta. cbn [fst]. eapply still_trans; [|apply still_enqueue]. eapply still_one; try reflexivity.
  cbn. split; [eauto|]. exists i. apply andb_true_iff in E. destruct E as [_ E]. apply Z.ltb_lt in E. auto.
Qed.
Lemma still_fold order l : forall acc, still (AeRto order) (fst (fst acc)) (fst (fst (fold_left checkRto1 l acc))).
Proof.
  induction l as [|k l IH]; intros [[s has] high]; cbn [fold_left]; [apply still_refl|].
  eapply still_trans; [apply still_checkRto1|apply IH].
Qed.
Lemma still_learn e d s : still e s (fst (learnFbi d s)).
Proof.
  unfold learnFbi. destruct (b_hasFbi (a_b s)); [apply still_refl|]. destruct (d_fbi d); [apply still_refl| |one].
  cbv zeta. match goal with |- context [cancelGreater ?k ?x] => assert (HS : still e s (cancelGreater k x)) end.
  { eapply still_trans; [|apply still_cancelGreater]. split; [reflexivity|].
    split; [now apply kept_same|]. exists []. cbn. auto. }
  match goal with |- context [cancelGreater ?k ?x] => set (s1 := cancelGreater k x) in * end.
  destruct (_ && _); cbn [fst]; [eapply still_trans; [exact HS|apply still_onFailure]|eapply still_trans; [exact HS|now apply still_same]].
Qed.
Lemma still_adapt e seg d s : still e s (adaptWindow P C seg d s).
Proof.
  unfold adaptWindow. destruct (d_mark d).
  - destruct (negb _); [|].
    + cbv zeta. destruct (_ || _); [|now apply still_same].
      split; [reflexivity|]. split; [now apply kept_same|].
      eexists [OWindow _; ODecrMark seg]. split; [reflexivity|]. split; [repeat constructor|reflexivity].
    + one.
  - one.
Qed.
Lemma still_onData e seg d s : still e s (onData C seg d s).
Proof.
  unfold onData. cbv zeta. eapply still_trans with (emit (ODeliver seg d) (set_b (b_received d (a_b s)) s)).
  { split; [reflexivity|]. split; [now apply kept_same|].
    exists [ODeliver seg d]. split; [reflexivity|]. split; [repeat constructor|reflexivity]. }
  destruct (c_cbThrows C d); [one|apply still_refl].
Qed.
Lemma still_now e s s' : still e s s' -> a_now s' = a_now s. Proof. now intros [H _]. Qed.

Lemma react_handleData seg d s : react (AeData seg d) s (handleData P C seg d s).
Proof.
  unfold handleData. destruct (isStopping s); [apply react_still, still_refl|].
  pose proof (still_learn (AeData seg d) d s) as HL. destruct (learnFbi d s) as [s1 go]. cbn [fst] in HL.
  destruct go; cbn [negb]; [|now apply react_still]. eapply still_react; [exact HL|]. clear HL.
  destruct (kget seg (a_segs s1)) as [i|] eqn:Ei; [|apply react_still, still_refl]. cbv zeta.
  set (s2 := set_highData _ s1).
  assert (H2 : still (AeData seg d) s1 s2) by now apply still_same.
  set (s3 := if state_eqb _ _ then s2 else _).
  assert (H3 : still (AeData seg d) s1 s3) by (unfold s3; destruct (state_eqb _ _); [exact H2|now apply still_same]).
  assert (E3 : a_segs s3 = a_segs s1) by (unfold s3; destruct (state_eqb _ _); reflexivity).
  set (s4 := onData C seg d (adaptWindow P C seg d s3)).
  assert (H4 : still (AeData seg d) s1 s4).
  { eapply still_trans; [exact H3|]. eapply still_trans; [apply still_adapt|]. apply still_onData. }
  assert (E4 : a_segs s4 = a_segs s1).
  { unfold s4, onData, adaptWindow, increaseWindow, decreaseWindow. destruct (c_cbThrows C d), (d_mark d); cbn [set_b emit set_tr a_segs throw set_crashed set_nCongMarks];
      try exact E3; destruct (negb _); cbn; try exact E3; destruct (_ || _); exact E3. }
  destruct (a_crashed s4); [now apply react_still|].
  set (s5 := sampleRtt P seg i (a_now s1 - si_timeSent i) s4).
  assert (H5 : still (AeData seg d) s1 s5).
  { eapply still_trans; [exact H4|]. unfold s5, sampleRtt. destruct (_ && _); [|apply still_refl].
    eapply still_one; try reflexivity. cbn. split; [eauto|]. exists i. rewrite E4, (still_now _ _ _ H4). auto. }
  eapply still_react; [exact H5|].
  set (s6 := set_segs _ s5). assert (H6 : still (AeData seg d) s5 s6).
  { split; [reflexivity|]. split; [now apply (kept_kdel seg)|]. exists []. cbn. auto. }
  eapply still_react; [exact H6|]. destruct (b_allReceived (a_b s6)); [|apply react_sending, sending_schedule].
  apply react_still. eapply still_trans; [apply still_cancel|one].
Qed.
Lemma react_handleNack e seg r s : react e s (handleNack P C seg r s).
Proof.
  unfold handleNack. destruct (isStopping s); [apply react_still, still_refl|].
  destruct r; try (apply react_still, still_refl); try (apply react_sending, sending_handleFail). apply react_lost.
Qed.
Lemma react_expire e seg s : react e s (handleLifetimeExpiration P C seg s).
Proof.
  unfold handleLifetimeExpiration. destruct (isStopping s); [apply react_still, still_refl|].
  cbv zeta. eapply still_react; [|apply react_lost]. now apply still_same.
Qed.
Lemma fold_crashed l : forall acc : st * bool * N, a_crashed (fst (fst acc)) = false -> a_crashed (fst (fst (fold_left checkRto1 l acc))) = false.
Proof.
  induction l as [|k l IH]; intros [[s has] high] H; cbn [fold_left]; [exact H|]. apply IH. cbn [fst] in *.
  unfold checkRto1. destruct (kget k (a_segs s)) as [i|] eqn:Ei; [|exact H]. destruct (_ && _); [|exact H]. cbv zeta. cbn [fst].
  unfold enqueueForRetransmission. cbv zeta. cbn [a_nInFlight emit set_tr set_nTimeouts].
  destruct (0 <? a_nInFlight s); cbn [a_segs set_retxq set_nInFlight emit set_tr set_nTimeouts]; rewrite Ei; exact H.
Qed.


Lemma react_mod e s s1 s' : a_now s1 = a_now s' -> a_rtt s1 = a_rtt s' -> a_segs s1 = a_segs s' -> a_tr s1 = a_tr s' -> react e s s1 -> react e s s'.
Proof.
  intros E1 E2 E3 E4 (m & H1 & H2). exists m. split; [exact H1|]. eapply sending_trans; [exact H2|]. now apply sending_same.
Qed.
Lemma react_step s e : a_crashed s = false -> match e with AeTick _ => True | _ => react e s (a_step P C s e) end.
Proof.
  intros Hc. unfold a_step. rewrite Hc.
  assert (GF : forall seg o (k : st -> st), nosend o = true -> right e s o -> (forall r, est1 o r = r) ->
    (forall x, react e x (k x)) -> react e s (fromFace seg (fun s => k (emit o s)) s)).
  { intros seg o k Ho Hr He Hk. unfold fromFace. destruct (kget seg (a_segs s)) as [i|] eqn:Ei; [|apply react_still, still_refl].
    destruct (si_live i); [|apply react_still, still_refl]. eapply still_react; [|apply Hk].
    split; [reflexivity|]. split.
    - eapply (kept_kset seg i); [exact Ei| | |reflexivity]; reflexivity.
    - exists [o]. split; [reflexivity|]. split; [constructor; auto|]. cbn. now rewrite He. }
  destruct e as [seg d|seg r|seg|order|dt|]; [| | | |exact I|].
  - apply (GF seg (OGotData seg d) (handleData P C seg d)); [reflexivity|exact I|reflexivity|]. apply react_handleData.
  - apply (GF seg (OGotNack seg r) (handleNack P C seg r)); [reflexivity|exact I|reflexivity|]. intros x. apply react_handleNack.
  - apply (GF seg (OGotExpiry seg) (handleLifetimeExpiration P C seg)); [reflexivity|exact I|reflexivity|]. intros x. apply react_expire.
  - destruct (a_timer s); [|apply react_still, still_refl].
    eapply still_react with (set_timer false s); [now apply still_same|]. generalize (set_timer false s). intros x.
    unfold checkRto. destruct (isStopping x); [apply react_still, still_refl|].
    match goal with |- context [fold_left checkRto1 ?l ?a] => pose proof (still_fold order l a) as HS end. cbn [fst] in HS.
    destruct (fold_left checkRto1 _ _) as [[s1 has] high]. cbn [fst] in HS. eapply still_react; [exact HS|].
    destruct (a_crashed s1); [apply react_still, still_refl|]. cbv zeta.
    destruct has; [|now apply react_still, still_same].
    eapply still_react; [apply still_recordTimeout|]. eapply react_mod; [| | | |apply react_sending, sending_schedule]; reflexivity.
  - apply react_still. eapply still_trans; [|apply still_cancel]. one.
Qed.
Lemma start_sending : sending (a_init P) (doRun P C (a_init P)).
Proof.
  unfold doRun. change (b_allReceived (a_b (a_init P))) with false. eapply sending_trans; [|apply sending_schedule]. now apply sending_same.
Qed.

(** ** runs *)
Notation hist := (fun es => a_history (a_run P C es)).
Lemma estimate_rev t : estimate P (rev t) = fold_right est1 (p_initR P) t.
Proof. unfold estimate. rewrite <- (rev_involutive t) at 2. rewrite fold_left_rev_right. reflexivity. Qed.
Lemma plain_est l r : Forall (fun o => plain o = true) l -> fold_right est1 r l = r.
Proof. induction 1 as [|o l H HF IH]; [reflexivity|]. cbn. rewrite IH. destruct o; try discriminate; reflexivity. Qed.
Lemma nosend_count k l : Forall (fun o => nosend o = true) l -> count (is_send k) l = 0.
Proof. induction 1 as [|o l H HF IH]; [reflexivity|]. rewrite count_cons, IH. destruct o; try discriminate; reflexivity. Qed.
Lemma count_hist k es : count (is_send k) (hist es) = count (is_send k) (a_tr (a_run P C es)).
Proof. unfold a_history. apply count_rev. Qed.

Record Known (es : list aevent) s : Prop := {
  K_now : a_now s = passed es;
  K_rtt : a_rtt s = fold_right est1 (p_initR P) (a_tr s);
  K_seg : forall k i, kget k (a_segs s) = Some i ->
    exists es1 es2, es = es1 ++ es2 /\ sent_at hist k es1 es2 /\ si_timeSent i = passed es1 /\ si_rto i = p_rto P (estimate P (hist es1))
}.
Lemma removelast_snoc (es : list aevent) e : removelast (es ++ [e]) = es.
Proof. rewrite removelast_app by discriminate. apply app_nil_r. Qed.
Lemma before_last (f : list aevent -> Z) es e : match es ++ [e] with [] => 0 | _ => f (removelast (es ++ [e])) end = f es.
Proof. rewrite removelast_snoc. destruct es; reflexivity. Qed.
Lemma known_react es e : Known es (a_run P C es) -> react e (a_run P C es) (a_run P C (es ++ [e])) ->
  passed (es ++ [e]) = passed es -> Known (es ++ [e]) (a_run P C (es ++ [e])).
Proof.
  intros [K1 K2 K3] (m & (N1 & S1 & l1 & E1 & F1 & R1) & (N2 & R2 & l2 & E2 & F2 & S2)) Hp.
  assert (Hrtt : a_rtt (a_run P C (es ++ [e])) = fold_right est1 (p_initR P) (a_tr (a_run P C (es ++ [e])))).
  { rewrite R2, R1, E2, E1, !fold_right_app, K2. symmetry. now apply plain_est. }
  split; [congruence|exact Hrtt|].
  intros k i Hi. assert (Hc : count (is_send k) l1 = 0).
  { apply nosend_count. eapply Forall_impl; [|exact F1]. now intros o [H _]. }
  assert (Ht : count (is_send k) (hist (es ++ [e])) = count (is_send k) l2 + count (is_send k) (hist es)).
  { rewrite !count_hist, E2, E1, !count_app. lia. }
  destruct (S2 k i Hi) as [(i1 & H1 & H2 & H3 & H4)|(H1 & H2 & H3)].
  - destruct (S1 k i1 H1) as (i0 & G1 & G2 & G3). destruct (K3 k i0 G1) as (es1 & es2 & -> & [Q1 Q2] & Q3 & Q4).
    exists es1, (es2 ++ [e]). split; [now rewrite app_assoc|]. split; [|split; congruence].
    split; [|exact Q2]. rewrite app_assoc. cbn beta in *. lia.
  - exists (es ++ [e]), []. split; [now rewrite app_nil_r|]. split; [|split].
    + split; [now rewrite app_nil_r|]. rewrite (before_last (fun es => count (is_send k) (hist es))). cbn beta in *. lia.
    + congruence.
    + rewrite H2, <- R2, Hrtt. unfold a_history. now rewrite estimate_rev.
Qed.
Theorem known_run es : a_crashed (a_run P C es) = true \/ Known es (a_run P C es).
Proof.
  induction es as [|e es IH] using rev_ind.
  - right. destruct start_sending as (N2 & R2 & l2 & E2 & F2 & S2). change (doRun P C (a_init P)) with (a_run P C []) in *.
    assert (Hrtt : a_rtt (a_run P C []) = fold_right est1 (p_initR P) (a_tr (a_run P C []))).
    { rewrite R2, E2, fold_right_app. symmetry. now apply plain_est. }
    split; [exact N2|exact Hrtt|].
    intros k i Hi. destruct (S2 k i Hi) as [(i1 & H1 & _)|(H1 & H2 & H3)]; [discriminate|].
    exists [], []. split; [reflexivity|]. split; [|split].
    + split; [reflexivity|]. cbn beta. rewrite count_hist, E2, app_nil_r. exact H3.
    + rewrite H1. reflexivity.
    + unfold a_history. rewrite H2, estimate_rev, <- Hrtt. now rewrite R2.
  - destruct (a_crashed (a_run P C es)) eqn:Ec.
    { left. rewrite a_run_snoc. unfold a_step. rewrite Ec. exact Ec. }
    destruct IH as [IH|IH]; [discriminate|]. right. pose proof (react_step (a_run P C es) e Ec) as HR. rewrite <- a_run_snoc in HR.
    destruct e; try (apply known_react; [exact IH|exact HR|rewrite passed_snoc; lia]).
    assert (E : a_run P C (es ++ [AeTick dt]) = set_now (a_now (a_run P C es) + Z.of_N dt) (a_run P C es))
      by (rewrite a_run_snoc; unfold a_step; now rewrite Ec).
    destruct IH as [K1 K2 K3]. rewrite E. split; [cbn; rewrite passed_snoc; lia|exact K2|].
    intros k i Hi. destruct (K3 k i Hi) as (es1 & es2 & -> & [Q1 Q2] & Q3 & Q4). exists es1, (es2 ++ [AeTick dt]).
    split; [now rewrite app_assoc|]. split; [|auto]. split; [|exact Q2]. rewrite app_assoc. cbn beta. rewrite E. exact Q1.
Qed.

(** ** what is measured *)
Lemma new_obs es e new o : a_history (a_run P C (es ++ [e])) = a_history (a_run P C es) ++ new -> In o new -> plain o = false ->
  (forall seg, o <> ODecrLoss seg) -> a_crashed (a_run P C es) = false /\ right e (a_run P C es) o.
Proof.
  intros Hh Ho Hp Hd. unfold a_history in Hh. assert (Hr : a_tr (a_run P C (es ++ [e])) = rev new ++ a_tr (a_run P C es)).
  { rewrite <- (rev_involutive (a_tr (a_run P C (es ++ [e])))), Hh, rev_app_distr, rev_involutive. reflexivity. }
  destruct (a_crashed (a_run P C es)) eqn:Ec.
  { exfalso. rewrite a_run_snoc in Hr. unfold a_step in Hr. rewrite Ec in Hr.
    assert (En : rev new = []) by (destruct (rev new); [reflexivity|exfalso; apply (f_equal (@length _)) in Hr; cbn in Hr; rewrite app_length in Hr; lia]).
    apply in_rev in Ho. rewrite En in Ho. destruct Ho. }
  split; [reflexivity|]. pose proof (react_step (a_run P C es) e Ec) as HR. rewrite <- a_run_snoc in HR.
  assert (HX : react e (a_run P C es) (a_run P C (es ++ [e])) -> right e (a_run P C es) o).
  { intros (m & (N1 & S1 & l1 & E1 & F1 & R1) & (N2 & R2 & l2 & E2 & F2 & S2)).
    assert (En : rev new = l2 ++ l1) by (apply app_inv_tail with (a_tr (a_run P C es)); rewrite <- Hr, E2, E1; now rewrite app_assoc).
    apply in_rev in Ho. rewrite En in Ho. apply in_app_or in Ho. rewrite Forall_forall in F1, F2. destruct Ho as [Ho|Ho].
    - apply F2 in Ho. congruence.
    - now apply F1. }
  destruct e; try (exact (HX HR)). exfalso. rewrite a_run_snoc in Hr. unfold a_step in Hr. rewrite Ec in Hr. cbn in Hr.
  assert (En : rev new = []) by (destruct (rev new); [reflexivity|exfalso; apply (f_equal (@length _)) in Hr; cbn in Hr; rewrite app_length in Hr; lia]).
  apply in_rev in Ho. rewrite En in Ho. destruct Ho.
Qed.
Lemma passed_app a b : passed (a ++ b) = passed a + passed b.
Proof. unfold passed. induction a as [|e a IH]; cbn [app fold_right]; [lia|]. rewrite IH. destruct e; lia. Qed.

Theorem rtt_right es e new k rtt n :
  a_history (a_run P C (es ++ [e])) = a_history (a_run P C es) ++ new -> In (ORttSample k rtt n) new ->
  exists d es1 es2, e = AeData k d /\ es = es1 ++ es2 /\ sent_at hist k es1 es2 /\ rtt = passed es2.
Proof.
  intros Hh Ho. destruct (new_obs _ _ _ _ Hh Ho eq_refl) as [Hc ([d ->] & i & Hi & ->)]; [discriminate|].
  destruct (known_run es) as [H|[K1 _ K3]]; [congruence|]. destruct (K3 k i Hi) as (es1 & es2 & -> & Q1 & Q2 & _).
  exists d, es1, es2. repeat split; auto; try apply Q1. rewrite K1, Q2, passed_app. lia.
Qed.
Theorem rto_right es e new k :
  a_history (a_run P C (es ++ [e])) = a_history (a_run P C es) ++ new -> In (ORto k) new ->
  exists es1 es2, es = es1 ++ es2 /\ sent_at hist k es1 es2 /\ p_rto P (estimate P (hist es1)) < passed es2.
Proof.
  intros Hh Ho. destruct (new_obs _ _ _ _ Hh Ho eq_refl) as [Hc ([d ->] & i & Hi & Hr)]; [discriminate|].
  destruct (known_run es) as [H|[K1 _ K3]]; [congruence|]. destruct (K3 k i Hi) as (es1 & es2 & -> & Q1 & Q2 & Q3).
  exists es1, es2. repeat split; auto; try apply Q1. rewrite K1, Q2, passed_app in Hr. cbn beta in *. lia.
Qed.

(** ** every overdue Interest is found *)
Lemma timer_run es : a_crashed (a_run P C es) = false -> stopping (a_run P C es) = false -> a_timer (a_run P C es) = true.
Proof.
  induction es as [|e es IH] using rev_ind.
  - intros _ Hs. change (a_run P C []) with (doRun P C (a_init P)) in *. unfold doRun in *.
    change (b_allReceived (a_b (a_init P))) with false in *. cbn match in *.
    destruct (mf_schedule C P (set_timer true (a_init P))) as [(_ & _ & [T|T] & _) _]; [exact T|congruence].
  - rewrite a_run_snoc. set (s := a_run P C es) in *. unfold a_step. destruct (a_crashed s) eqn:Hc; [intros Hx; congruence|].
    specialize (IH eq_refl).
    assert (G : forall s' : st, (stopping s = true -> stopping s' = true) -> (a_timer s' = a_timer s \/ stopping s' = true) ->
      stopping s' = false -> a_timer s' = true).
    { intros s' H1 [H2|H2] H3; [|congruence]. rewrite H2. apply IH. destruct (stopping s); [rewrite H1 in H3; auto|reflexivity]. }
    assert (GM : forall s' : st, mono s s' -> stopping s' = false -> a_timer s' = true).
    { intros s' (_ & H1 & H2 & _). now apply G. }
    assert (GF : forall seg o (k : st -> st), (forall x, mono x (k x)) ->
      stopping (fromFace seg (fun s => k (emit o s)) s) = false -> a_timer (fromFace seg (fun s => k (emit o s)) s) = true).
    { intros seg o k Hk. unfold fromFace. destruct (kget seg (a_segs s)); [destruct (si_live s0)|]; try exact IH.
      match goal with |- context [k ?x] => destruct (Hk x) as (_ & H1 & H2 & _) end. now apply G. }
    assert (GL : forall seg x, mono x (let s := enqueueForRetransmission seg x in if a_crashed s then s else schedulePackets P C (recordTimeout P C seg s))).
    { intros seg x. cbv zeta. eapply mono_trans; [exact (proj1 (mf_enqueue seg x))|]. destruct (a_crashed (enqueueForRetransmission seg x)); [apply mono_refl|].
      eapply mono_trans; [apply (mf_recordTimeout C P seg)|apply mf_schedule]. }
    intros _. destruct e as [seg d|seg r|seg|order|dt|].
    + apply (GF seg (OGotData seg d) (handleData P C seg d)). intros x. apply mono_handleData.
    + apply (GF seg (OGotNack seg r) (handleNack P C seg r)). intros x. unfold handleNack. destruct (isStopping x); [apply mono_refl|].
      destruct r; try apply mf_handleFail; [apply GL|apply mono_refl].
    + apply (GF seg (OGotExpiry seg) (handleLifetimeExpiration P C seg)). intros x. unfold handleLifetimeExpiration. destruct (isStopping x); [apply mono_refl|].
      cbv zeta. match goal with |- context [enqueueForRetransmission seg ?y] => apply mono_trans with y; [|apply (GL seg y)] end.
      apply monof_same; reflexivity.
    + destruct (a_timer s) eqn:Et; [|intros H; specialize (IH H); congruence]. unfold checkRto. change (isStopping (set_timer false s)) with (stopping s).
      destruct (stopping s) eqn:Es; [intros H; cbn in H; congruence|].
      match goal with |- context [fold_left checkRto1 ?l ?a] => pose proof (fold_crashed l a Hc) as Hcr end.
      destruct (fold_left checkRto1 _ _) as [[s1 has] high]. cbn [fst] in Hcr. rewrite Hcr. reflexivity.
    + exact IH.
    + apply G; [|].
      * intros Hs. unfold cancel. change (isStopping (emit OGotCancel s)) with (stopping s). rewrite Hs. exact Hs.
      * unfold cancel. change (isStopping (emit OGotCancel s)) with (stopping s). destruct (stopping s) eqn:Es; [right; exact Es|right; reflexivity].
Qed.

Lemma hist_grows es1 es2 k : count (is_send k) (hist es1) <= count (is_send k) (hist (es1 ++ es2)).
Proof.
  induction es2 as [|e es2 IH] using rev_ind; [rewrite app_nil_r; lia|]. rewrite app_assoc. cbn beta in *.
  rewrite !count_hist in *. rewrite (a_run_snoc P C (es1 ++ es2)). destruct (wk_step C P (a_run P C (es1 ++ es2)) e) as [[l ->] _].
  rewrite count_app. pose proof (count_nonneg (is_send k) l). lia.
Qed.
Lemma sent_at_unique k es1 es2 es1' es2' : es1 ++ es2 = es1' ++ es2' -> sent_at hist k es1 es2 -> sent_at hist k es1' es2' -> es1 = es1'.
Proof.
  assert (G : forall a b c d, a ++ b = c ++ d -> sent_at hist k a b -> sent_at hist k c d -> (length a <= length c)%nat -> a = c).
  { intros a b c d E [A1 A2] [C1 C2] Hl. assert (Hp : exists z, c = a ++ z).
    { exists (firstn (length c - length a) b). apply (f_equal (firstn (length c))) in E. rewrite firstn_app in E.
      rewrite (firstn_app (length c) c d), Nat.sub_diag, firstn_all, firstn_O, app_nil_r in E.
      rewrite firstn_all2 in E by lia. now symmetry. }
    destruct Hp as [z ->]. destruct z as [|z0 z] using rev_ind; [now rewrite app_nil_r|]. exfalso. clear IHz.
    rewrite app_assoc in C2. rewrite (before_last (fun es => count (is_send k) (hist es))) in C2.
    pose proof (hist_grows a z k) as H1. pose proof (hist_grows (a ++ z) [z0] k) as H2. rewrite <- app_assoc in H2.
    rewrite E in A1. rewrite <- app_assoc in C2. cbn beta in *. lia. }
  intros E H1 H2. destruct (Nat.le_ge_cases (length es1) (length es1')); [eapply G; eauto|symmetry; eapply G; [symmetry; exact E| | |]; auto].
Qed.

Lemma fold_keeps k l : forall acc : st * bool * N, exists new, a_tr (fst (fst (fold_left checkRto1 l acc))) = new ++ a_tr (fst (fst acc)) /\
  (forall i, In k l -> kget k (a_segs (fst (fst acc))) = Some i -> si_state i <> InRetxQueue ->
     si_rto i < a_now (fst (fst acc)) - si_timeSent i -> In (ORto k) new).
Proof.
  induction l as [|j l IH]; intros [[s has] high]; cbn [fold_left fst].
  - exists []. split; [reflexivity|intros ? []].
  - destruct (IH (checkRto1 (s, has, high) j)) as (new & E & H).
    unfold checkRto1 in *. destruct (kget j (a_segs s)) as [ij|] eqn:Ej.
    2:{ exists new. split; [exact E|]. intros i [->|Hi] Hk; [congruence|]. now apply (H i). }
    destruct (negb (state_eqb (si_state ij) InRetxQueue) && (si_rto ij <? a_now s - si_timeSent ij)) eqn:Eb.
    2:{ exists new. split; [exact E|]. intros i [->|Hi] Hk Hs Hr; [|now apply (H i)]. exfalso.
        assert (i = ij) as -> by congruence. apply andb_false_iff in Eb. destruct Eb as [Eb|Eb]; [|apply Z.ltb_ge in Eb; lia].
        destruct (si_state ij); cbn in Eb; congruence. }
    cbv zeta in *. cbn [fst] in *.
    assert (Et : exists z, a_tr (enqueueForRetransmission j (emit (ORto j) (set_nTimeouts (a_nTimeouts s + 1) s))) = z ++ ORto j :: a_tr s).
    { unfold enqueueForRetransmission. cbv zeta. cbn [a_nInFlight emit set_tr set_nTimeouts].
      destruct (0 <? a_nInFlight s); cbn [a_segs set_retxq set_nInFlight emit set_tr set_nTimeouts]; rewrite Ej; [exists []|exists [OAssert]]; reflexivity. }
    destruct Et as [z Et]. rewrite Et in E. exists (new ++ z ++ [ORto j]). split; [rewrite E, <- !app_assoc; reflexivity|].
    intros i Hi Hk Hs Hr. apply in_or_app. destruct (N.eq_dec k j) as [->|Hne].
    { right. apply in_or_app. right. now left. }
    destruct Hi as [Hi|Hi]; [congruence|]. left. apply (H i); auto.
    + unfold enqueueForRetransmission. cbv zeta. cbn [a_nInFlight emit set_tr set_nTimeouts].
      destruct (0 <? a_nInFlight s); cbn [a_segs set_retxq set_nInFlight emit set_tr set_nTimeouts]; rewrite Ej; cbn [a_segs set_segs];
        rewrite kget_kset; destruct (N.eqb_spec k j); congruence.
    + unfold enqueueForRetransmission. cbv zeta. cbn [a_nInFlight emit set_tr set_nTimeouts].
      destruct (0 <? a_nInFlight s); cbn [a_segs set_retxq set_nInFlight emit set_tr set_nTimeouts]; rewrite Ej; exact Hr.
Qed.

Theorem rto_all order k es1 es2 :
  let es := es1 ++ es2 in
  existsb is_over (hist es) = false -> ~ In OThrow (hist es) -> In k (outstanding (hist es)) ->
  sent_at hist k es1 es2 -> p_rto P (estimate P (hist es1)) < passed es2 ->
  exists new, hist (es ++ [AeRto order]) = hist es ++ new /\ In (ORto k) new.
Proof.
  cbv zeta. set (es := es1 ++ es2). intros Hover Hth Hout Hsent Hlate. set (s := a_run P C es) in *.
  assert (Hc : a_crashed s = false).
  { destruct (a_crashed s) eqn:E; [|reflexivity]. exfalso. apply Hth. unfold a_history. rewrite <- in_rev. now apply crash_thrown. }
  assert (Hs : stopping s = false).
  { destruct (inv_run C P es) as [HA _]. unfold s. rewrite <- (A_end _ _ HA), <- over_tr. exact Hover. }
  pose proof (timer_run es Hc Hs) as Ht. fold s in Ht.
  destruct (fi_run C P es) as [_ HF]. destruct (HF Hc Hs) as [F1 _ _ _]. fold s in F1.
  assert (Hk : flk k (a_segs s) = true). { apply F1. rewrite <- (rev_involutive (a_tr s)), flset_rev. exact Hout. }
  unfold flk in Hk. destruct (kget k (a_segs s)) as [i|] eqn:Ei; [|discriminate].
  destruct (known_run es) as [H|[K1 _ K3]]; [fold s in H; congruence|]. destruct (K3 k i Ei) as (a & b & Eab & Q1 & Q2 & Q3).
  assert (a = es1) as -> by (symmetry; eapply sent_at_unique; [exact Eab|exact Hsent|exact Q1]).
  assert (b = es2) as -> by (unfold es in Eab; apply app_inv_head in Eab; auto).
  assert (Hr : si_rto i < a_now s - si_timeSent i). { fold s in K1. rewrite K1, Q2, Q3. unfold es. rewrite passed_app. cbn beta in *. lia. }
  enough (HX : exists new, a_tr (a_run P C (es ++ [AeRto order])) = new ++ a_tr s /\ In (ORto k) new).
  { destruct HX as (new & E & Hin). exists (rev new). unfold a_history. rewrite E, rev_app_distr. split; [reflexivity|now apply in_rev in Hin]. }
  rewrite a_run_snoc. fold s. unfold a_step. rewrite Hc, Ht. unfold checkRto. change (isStopping (set_timer false s)) with (stopping s). rewrite Hs.
  match goal with |- context [fold_left checkRto1 ?l ?a] =>
    destruct (fold_keeps k l a) as (new & E & Hin); pose proof (fold_crashed l a Hc) as Hcr end.
  destruct (fold_left checkRto1 _ _) as [[s1 has] high]. cbn [fst] in *. rewrite Hcr. cbv zeta.
  assert (Hn : In (ORto k) new).
  { apply (Hin i); auto.
    - apply in_visit. change (a_segs (set_timer false s)) with (a_segs s). apply kget_some_keys. eauto.
    - intros E0. rewrite E0 in Hk. discriminate. }
  destruct has.
  - destruct (mf_recordTimeout C P high s1) as [([l1 E1] & _) _]. destruct (mf_schedule C P (recordTimeout P C high s1)) as [([l2 E2] & _) _].
    exists (l2 ++ l1 ++ new). cbn [set_timer a_tr]. rewrite E2, E1, E. split; [now rewrite <- !app_assoc|]. apply in_or_app. right. apply in_or_app. now right.
  - exists new. split; [exact E|exact Hn].
Qed.
End T.
