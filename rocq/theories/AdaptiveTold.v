(** Proofs about the numbers in the messages of the adaptive pipelines. *)
From Verif Require Import Base BaseFacts PipelineBase PipelineSpec AdaptiveModel AdaptiveTheorems Double CatMsgModel
  ChunksTextModel ChunksTextSpec ChunksTextProofs TimesSpec AdaptiveTimes DumpModel.
From Coq Require Import List.
Import ListNotations.
Local Open Scope Z_scope.

Section T.
Context {W R : Type}.
Variable P : policy W R.
Variable C : aconfig.
Variables cwnd ssthresh : W -> f64.
Variable summary : @astate W R -> text.
Notation st := (@astate W R).
Implicit Types s : st.
Notation hist := (fun es => a_history (a_run P C es)).

Lemma rtt_only es e new k rtt n :
  a_history (a_run P C (es ++ [e])) = a_history (a_run P C es) ++ new -> In (ORttSample k rtt n) new ->
  count (is_send k) (hist es) = 1.
Proof.
  intros Hh Ho. destruct (rtt_right P C es e new k rtt n Hh Ho) as (d & es1 & es2 & _ & -> & [Q1 Q2] & _).
  apply in_split in Ho. destruct Ho as (a & b & ->). rewrite app_assoc in Hh.
  destruct (adaptive_karn P C _ _ _ _ _ _ Hh) as (_ & _ & Hr). rewrite count_app in Hr.
  pose proof (count_nonneg (is_resend k) (hist (es1 ++ es2))) as H0. pose proof (count_nonneg (is_resend k) a) as H1.
  assert (Hp : 0 <= match es1 with [] => 0 | _ => count (is_send k) (hist (removelast es1)) end)
    by (destruct es1; [lia|apply count_nonneg]).
  assert (Hs : 0 < count (is_send k) (hist (es1 ++ es2))) by (rewrite Q1; lia).
  rewrite count_sends in Hs |- *. cbn beta in *.
  assert (Hc : (count_occ N.eq_dec (first_sends (a_history (a_run P C (es1 ++ es2)))) k <= 1)%nat).
  { rewrite (adaptive_in_order P C). apply NoDup_count_occ. unfold upto. apply FinFun.Injective_map_NoDup; [|apply seq_NoDup]. intros x y. lia. }
  lia.
Qed.

(** the messages about sending *)
Definition about_sending (m : cmsg) : bool := match m with MRequest _ | MRetransmit _ | MRetries _ _ => true | _ => false end.
Lemma ma_send_msgs seg retx s : Forall (fun m => about_sending m = true) (ma_sendInterest C seg retx s).
Proof.
  unfold ma_sendInterest. destruct (isStopping s); [constructor|]. destruct (_ && _); [constructor|]. destruct (_ && _); [constructor|].
  constructor; [destruct retx; reflexivity|]. destruct retx; [|constructor]. destruct (kget _ _); [|constructor]. destruct (_ && _); repeat constructor.
Qed.
Lemma ma_iter_msgs n : forall s, Forall (fun m => about_sending m = true) (ma_iter P C n s).
Proof.
  induction n as [|n IH]; intros s; cbn [ma_iter]; [constructor|]. apply Forall_app. split; [|apply IH].
  unfold ma_sendOne. cbv zeta. destruct (a_retxq _); [destruct (b_getNext _)|]; apply ma_send_msgs.
Qed.
Lemma ma_schedule_msgs s : Forall (fun m => about_sending m = true) (ma_schedulePackets P C s).
Proof. apply ma_iter_msgs. Qed.

(** the numbers are those of the state afterwards *)
Definition fits (e : aevent) s s' (m : cmsg) : Prop :=
  match m with
  | MReceivedRtt k rtt rto => (exists d, e = AeData k d) /\ exists i, kget k (a_segs s) = Some i /\ rtt = a_now s - si_timeSent i /\ rto = si_rto i
  | MMark k d w => e = AeData k d /\ w = cwnd (a_cwnd s')
  | MLoss w t => w = cwnd (a_cwnd s') /\ t = ssthresh (a_cwnd s')
  | _ => True
  end.
Lemma fits_sending e s s' l : Forall (fun m => about_sending m = true) l -> Forall (fits e s s') l.
Proof. apply Forall_impl. intros m. destruct m; cbn; try discriminate; auto. Qed.
Lemma fits_back e a s s' m : a_now s = a_now a -> kept a s -> fits e s s' m -> fits e a s' m.
Proof.
  intros Hn Hk. destruct m; cbn; auto. intros [H1 (i & Hi & Hr & Ho)]. split; [exact H1|]. destruct (Hk _ _ Hi) as (i0 & E0 & E1 & E2).
  exists i0. split; [exact E0|]. split; congruence.
Qed.
Lemma q_cwnd s s' : quiet s s' -> a_cwnd s' = a_cwnd s. Proof. now intros [H _]. Qed.
Lemma still_back e a s s' l : still P e a s -> Forall (fits e s s') l -> Forall (fits e a s') l.
Proof. intros (H1 & H2 & _). apply Forall_impl. intros m. now apply fits_back. Qed.

Lemma fits_lost e seg s : let x := enqueueForRetransmission seg s in
  Forall (fits e s (if a_crashed x then x else schedulePackets P C (recordTimeout P C seg x)))
    (if a_crashed x then [] else ma_recordTimeout P C cwnd ssthresh seg x ++ ma_schedulePackets P C (recordTimeout P C seg x)).
Proof.
  cbv zeta. set (x := enqueueForRetransmission seg s). destruct (a_crashed x); [constructor|]. apply Forall_app. split.
  - unfold ma_recordTimeout. destruct (_ || _); [|constructor]. cbv zeta. constructor; [|constructor]. cbn.
    now rewrite (q_cwnd _ _ (q_schedule P C _)).
  - apply fits_sending, ma_schedule_msgs.
Qed.
Lemma fits_data seg d s : Forall (fits (AeData seg d) s (handleData P C seg d s)) (ma_handleData P C cwnd summary seg d s).
Proof.
  unfold handleData, ma_handleData. destruct (isStopping s); [constructor|].
  pose proof (still_learn P (AeData seg d) d s) as HL. destruct (learnFbi d s) as [s1 go]. cbn [fst] in HL.
  destruct go; cbn [negb]; [|constructor]. apply (still_back _ _ _ _ _ HL).
  destruct (kget seg (a_segs s1)) as [i|] eqn:Ei; [|constructor]. cbv zeta.
  constructor; [cbn; split; [eauto|]; exists i; auto|].
  set (s3 := if state_eqb _ _ then _ else _).
  set (s4 := onData C seg d (adaptWindow P C seg d s3)).
  assert (E4 : a_cwnd s4 = a_cwnd (adaptWindow P C seg d s3)) by apply (q_cwnd _ _ (q_onData C seg d _)).
  apply Forall_app. split.
  - unfold ma_adaptWindow. destruct (d_mark d) eqn:Em; [|constructor]. destruct (negb _) eqn:Eg; [|constructor].
    destruct (c_disableCwa C || _) eqn:Ew; [|constructor].
    constructor; [|constructor]. cbn [fits]. split; [reflexivity|]. f_equal.
    destruct (a_crashed s4); [now symmetry|].
    set (s6 := set_segs _ _). assert (E6 : a_cwnd s6 = a_cwnd s4).
    { unfold s6. cbn [set_segs a_cwnd]. unfold sampleRtt. destruct (_ && _); reflexivity. }
    destruct (b_allReceived _).
    + change (a_cwnd (adaptWindow P C seg d s3) = a_cwnd (cancel s6)). rewrite (q_cwnd _ _ (q_cancel s6)). congruence.
    + rewrite (q_cwnd _ _ (q_schedule P C _)). congruence.
  - destruct (a_crashed s4); [constructor|]. destruct (b_allReceived _); [repeat constructor|]. apply fits_sending, ma_schedule_msgs.
Qed.
Lemma fits_step s e : Forall (fits e s (a_step P C s e)) (ma_step P C cwnd ssthresh summary s e).
Proof.
  unfold a_step, ma_step. destruct (a_crashed s); [constructor|].
  assert (GF : forall seg o (k : st -> st) (mk : st -> list cmsg), (forall x, Forall (fits e x (k x)) (mk x)) ->
    Forall (fits e s (fromFace seg (fun s => k (emit o s)) s)) (ma_fromFace seg (fun s => mk (emit o s)) s)).
  { intros seg o k mk Hk. unfold fromFace, ma_fromFace. destruct (kget seg (a_segs s)) as [i|] eqn:Ei; [|constructor].
    destruct (si_live i); [|constructor]. match goal with |- context [k ?x] => specialize (Hk x) end.
    eapply Forall_impl; [|exact Hk]. intros m. apply fits_back; [reflexivity|].
    eapply (kept_kset seg i); [exact Ei| | |reflexivity]; reflexivity. }
  destruct e as [seg d|seg r|seg|order|dt|]; [| | | |constructor|constructor].
  - apply (GF seg (OGotData seg d) (handleData P C seg d) (ma_handleData P C cwnd summary seg d)). apply fits_data.
  - apply (GF seg (OGotNack seg r) (handleNack P C seg r) (ma_handleNack P C cwnd ssthresh seg r)). intros x.
    unfold handleNack, ma_handleNack. destruct (isStopping x); [constructor|]. constructor; [exact I|].
    destruct r; try constructor. apply fits_lost.
  - apply (GF seg (OGotExpiry seg) (handleLifetimeExpiration P C seg) (ma_handleLifetimeExpiration P C cwnd ssthresh seg)). intros x.
    unfold handleLifetimeExpiration, ma_handleLifetimeExpiration. destruct (isStopping x); [constructor|]. cbv zeta.
    match goal with |- context [enqueueForRetransmission seg ?y] => apply (still_back (AeExpire seg) x y); [now apply still_same|apply fits_lost] end.
  - destruct (a_timer s); [|constructor]. unfold checkRto, ma_checkRto. destruct (isStopping _); [constructor|].
    destruct (fold_left checkRto1 _ _) as [[s1 has] high]. destruct (a_crashed s1); [constructor|].
    destruct has; [|constructor]. cbv zeta. apply Forall_app. split; [|apply fits_sending, ma_schedule_msgs].
    unfold ma_recordTimeout. destruct (_ || _); [|constructor]. cbv zeta. constructor; [|constructor]. cbn.
    now rewrite (q_cwnd _ _ (q_schedule P C _)).
Qed.

Theorem told_right es e m :
  let s' := a_run P C (es ++ [e]) in
  In m (ma_step P C cwnd ssthresh summary (a_run P C es) e) ->
  match m with
  | MReceivedRtt k rtt rto =>
      (exists d, e = AeData k d) /\
      exists es1 es2, es = es1 ++ es2 /\ sent_at hist k es1 es2 /\ rtt = passed es2 /\ rto = p_rto P (estimate P (hist es1))
  | MMark k d w => e = AeData k d /\ w = cwnd (a_cwnd s')
  | MLoss w t => w = cwnd (a_cwnd s') /\ t = ssthresh (a_cwnd s')
  | _ => True
  end.
Proof.
  cbv zeta. intros Hm. pose proof (fits_step (a_run P C es) e) as HF. rewrite Forall_forall in HF. specialize (HF m Hm).
  rewrite a_run_snoc. destruct m; try exact HF. destruct HF as [H1 (i & Hi & -> & ->)]. split; [exact H1|].
  destruct (known_run P C es) as [H|[K1 _ K3]].
  { unfold ma_step in Hm. rewrite H in Hm. destruct Hm. }
  destruct (K3 _ _ Hi) as (es1 & es2 & -> & Q1 & Q2 & Q3). exists es1, es2. split; [reflexivity|]. split; [exact Q1|].
  split; [|exact Q3]. rewrite K1, Q2, passed_app. lia.
Qed.
Lemma ma_run_snoc es e : ma_run P C cwnd ssthresh summary (es ++ [e]) =
  ma_run P C cwnd ssthresh summary es ++ ma_step P C cwnd ssthresh summary (a_run P C es) e.
Proof.
  unfold ma_run, a_run. rewrite <- app_assoc. f_equal. generalize (doRun P C (a_init P)). induction es as [|x es IH]; intros s; cbn.
  - now rewrite app_nil_r.
  - now rewrite IH, app_assoc.
Qed.
End T.
