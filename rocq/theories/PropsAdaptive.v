(** Properties of the adaptive pipelines (aimd, cubic): C01, C02, C05-C07, C09, C10, C12,
    C14, C16, C17, C20, C50.  Everywhere: [P] any window policy and RTT estimator, [C] any
    option values, [es] any sequence of network, timer, clock and user events. *)
From Verif Require Import Base PipelineBase PipelineSpec AdaptiveModel CatchunksModel CatchunksSpec.
From Verif Require Import CatchunksProofs AdaptiveTheorems AdaptiveWitness AdaptiveSummary.

(** C01: at every moment of a run against a genuine producer, standard output is a prefix
    of the content. *)
Theorem C01_adaptive_output_prefix :
  forall {W R} (P : policy W R) (C : aconfig) (es : list aevent) h1 h2 chunks,
    a_history (a_run P C es) = h1 ++ h2 ->
    genuine_history chunks h1 ->
    is_prefix (catchunks_stdout h1) (concat chunks).
Proof. exact @adaptive_stdout_prefix. Qed.
Print Assumptions C01_adaptive_output_prefix.

Example C01_case :
  let h := a_history (a_run (halving 3) cfg run3) in
  genuine_history chunks3 h /\ catchunks_stdout (firstn 12 h) = [1; 2]%N /\ catchunks_stdout h = [1; 2; 3; 4; 5]%N.
Proof.
  split; [apply genuine_forall; vm_compute; repeat (constructor; [vm_compute; tauto|]); constructor | vm_compute; auto].
Qed.

(** C02: once the pipeline has reported completion, standard output is the content. *)
Theorem C02_adaptive_complete_output :
  forall {W R} (P : policy W R) (C : aconfig) (es : list aevent) chunks,
    let h := a_history (a_run P C es) in
    In ODone h -> genuine_history chunks h -> catchunks_stdout h = concat chunks.
Proof. exact @adaptive_stdout_done. Qed.
Print Assumptions C02_adaptive_complete_output.

Example C02_case : existsb is_done (a_history (a_run (halving 3) cfg run3)) = true.
Proof. vm_compute. reflexivity. Qed.

(** C05: no segment is delivered twice, and only Data that arrived for a requested segment
    is delivered -- against any producer. *)
Theorem C05_adaptive_delivery_once :
  forall {W R} (P : policy W R) (C : aconfig) (es : list aevent),
    NoDup (map fst (deliveries (a_history (a_run P C es)))).
Proof. exact @adaptive_once. Qed.
Print Assumptions C05_adaptive_delivery_once.

Theorem C05_adaptive_delivery_requested :
  forall {W R} (P : policy W R) (C : aconfig) (es : list aevent) h1 seg d h2,
    a_history (a_run P C es) = h1 ++ ODeliver seg d :: h2 ->
    In (OGotData seg d) h1 /\ In (OInterest seg false) h1.
Proof. exact @adaptive_delivery_genuine. Qed.
Print Assumptions C05_adaptive_delivery_requested.

Example C05_case :
  map fst (deliveries (a_history (a_run (halving 3) cfg run3))) = [0; 2; 1]%N.
Proof. vm_compute. reflexivity. Qed.

(** C06: no Interest beyond the announced final segment. *)
Theorem C06_adaptive_final_respected :
  forall {W R} (P : policy W R) (C : aconfig) (es : list aevent) h1 seg retx h2 n,
    a_history (a_run P C es) = h1 ++ OInterest seg retx :: h2 ->
    known_last h1 = Some n -> (seg <= n)%N.
Proof. exact @adaptive_final. Qed.
Print Assumptions C06_adaptive_final_respected.

(** Interests are still sent after the final segment became known *)
Example C06_case :
  exists h1 h2, a_history (a_run (halving 1) cfg [AeData 0 (dat [] (FbiSegment 1))]) =
                h1 ++ OInterest 1 false :: h2 /\ known_last h1 = Some 1%N.
Proof.
  eexists [_; _; _; _; _]. exists []. vm_compute. split; reflexivity.
Qed.

(** C07: first-time Interests are for 0, 1, 2, ... in this order, each once; a
    retransmission is for a segment already requested and not yet delivered. *)
Theorem C07_adaptive_requests_in_order :
  forall {W R} (P : policy W R) (C : aconfig) (es : list aevent),
    let h := a_history (a_run P C es) in
    first_sends h = upto (length (first_sends h)).
Proof. exact @adaptive_in_order. Qed.
Print Assumptions C07_adaptive_requests_in_order.

Theorem C07_adaptive_resend_needed :
  forall {W R} (P : policy W R) (C : aconfig) (es : list aevent) h1 seg h2,
    a_history (a_run P C es) = h1 ++ OInterest seg true :: h2 ->
    In (OInterest seg false) h1 /\ ~ In seg (map fst (deliveries h1)).
Proof. exact @adaptive_resend. Qed.
Print Assumptions C07_adaptive_resend_needed.

Example C07_case :
  let h := a_history (a_run (halving 3) cfg run3) in
  first_sends h = [0; 1; 2; 3]%N /\ count (is_resend 1) h = 1.
Proof. vm_compute. auto. Qed.

(** C09, as far as it holds: an Interest is sent only while fewer Interests are outstanding
    than the window allows -- provided that no loss signal and no abandonment concerned a
    segment that was already waiting for retransmission.  Missing: histories with such
    signals, for which the claim is false (next theorem). *)
Theorem C09_adaptive_window_partial :
  forall {W R} (P : policy W R) (C : aconfig) (es : list aevent) h1 seg retx h2,
    a_history (a_run P C es) = h1 ++ OInterest seg retx :: h2 ->
    no_stale_loss h1 ->
    Z.of_nat (length (outstanding h1)) < window (p_floor P (p_initW P)) h1.
Proof. exact @adaptive_window. Qed.
Print Assumptions C09_adaptive_window_partial.

Example C09_case :
  let h := a_history (a_run (halving 4) cfg run_loss) in
  nth_error h 19 = Some (OInterest 4 false) /\
  outstanding (firstn 19 h) = [3]%N /\ window 4 (firstn 19 h) = 2.
Proof. vm_compute. auto. Qed.

(** C09 for all histories, weakened by exactly what is miscounted: the window is exceeded by
    at most the number of loss signals and abandonments that concerned a segment that was not
    outstanding. *)
Theorem C09_adaptive_window_stale :
  forall {W R} (P : policy W R) (C : aconfig) (es : list aevent) h1 seg retx h2,
    a_history (a_run P C es) = h1 ++ OInterest seg retx :: h2 ->
    Z.of_nat (length (outstanding h1)) < window (p_floor P (p_initW P)) h1 + stale_losses h1.
Proof. exact @adaptive_window_stale. Qed.
Print Assumptions C09_adaptive_window_stale.

(** here the bound is reached *)
Example C09_stale_case :
  let h := a_history (a_run (halving 4) cfg run_drift) in
  nth_error h 13 = Some (OInterest 2 true) /\ stale_losses (firstn 13 h) = 1 /\
  window 4 (firstn 13 h) = 2 /\ length (outstanding (firstn 13 h)) = 2%nat.
Proof. vm_compute. auto. Qed.

(** C09 in general is false: the expiry of the lifetime of a segment that is already queued
    for retransmission is counted twice, and the window is exceeded. *)
Theorem C09_adaptive_window_refuted :
  exists (P : policy Z unit) (C : aconfig) (es : list aevent) h1 seg retx h2,
    a_history (a_run P C es) = h1 ++ OInterest seg retx :: h2 /\
    window (p_floor P (p_initW P)) h1 <= Z.of_nat (length (outstanding h1)).
Proof.
  exists (halving 4), cfg, run_drift.
  exists (firstn 13 (a_history (a_run (halving 4) cfg run_drift))), 2%N, true, [].
  vm_compute. split; [reflexivity|discriminate].
Qed.
Print Assumptions C09_adaptive_window_refuted.

(** and the assertion that the number of Interests in flight is not negative can fail *)
Theorem C09_adaptive_assertion_refuted :
  exists (P : policy Z unit) (C : aconfig) (es : list aevent),
    In OAssert (a_history (a_run P C es)).
Proof.
  exists (halving 4), cfg, run_assert. vm_compute. tauto.
Qed.
Print Assumptions C09_adaptive_assertion_refuted.

(** C10: after a failure, a completion or a cancel, no Interest, no delivery, no further
    report. *)
Theorem C10_adaptive_nothing_after_end :
  forall {W R} (P : policy W R) (C : aconfig) (es : list aevent) h1 o h2,
    a_history (a_run P C es) = h1 ++ o :: h2 -> is_over o = true ->
    forall x, In x h2 -> is_action x = false.
Proof. exact @adaptive_over. Qed.
Print Assumptions C10_adaptive_nothing_after_end.

Example C10_case :
  let h := a_history (a_run (halving 2) cfg
             [AeData 0 (dat [] (FbiSegment 5)); AeNack 1 NrNoRoute; AeData 2 (dat [] FbiAbsent); AeCancel]) in
  exists h1, h = h1 ++ OFail (RNack 1 NrNoRoute) :: [OGotCancel].
Proof. eexists [_; _; _; _; _; _; _; _]. vm_compute. reflexivity. Qed.

(** C12, as far as it holds: with r >= 1 at most r + 1 Interests per segment (in general
    1 + max 1 r).  Missing: r = 0, for which the claim is false (next theorem). *)
Theorem C12_adaptive_retry_limit_partial :
  forall {W R} (P : policy W R) (C : aconfig) (es : list aevent) seg,
    c_maxRetries C <> -1 ->
    count (is_send seg) (a_history (a_run P C es)) <= 1 + Z.max 1 (c_maxRetries C).
Proof. exact @adaptive_retries. Qed.
Print Assumptions C12_adaptive_retry_limit_partial.

(** the bound is reached *)
Example C12_case :
  count (is_send 0) (a_history (a_run (halving 1) (AConfig 2 false false d_appnack)
     [AeTick 20; AeRto []; AeTick 20; AeRto []; AeTick 20; AeRto []; AeTick 20; AeRto []])) = 3.
Proof. vm_compute. reflexivity. Qed.

(** with --retries 0 a segment is still requested twice *)
Theorem C12_adaptive_retry_limit_refuted :
  exists (P : policy Z unit) (C : aconfig) (es : list aevent) seg,
    c_maxRetries C = 0 /\
    c_maxRetries C + 1 < count (is_send seg) (a_history (a_run P C es)).
Proof. exists (halving 1), cfg0, [AeTick 20; AeRto []], 0%N. vm_compute. auto. Qed.
Print Assumptions C12_adaptive_retry_limit_refuted.

(** C14: every failure report is justified. *)
Theorem C14_adaptive_failure_justified :
  forall {W R} (P : policy W R) (C : aconfig) (es : list aevent) h1 rs h2,
    a_history (a_run P C es) = h1 ++ OFail rs :: h2 ->
    failure_justified (c_maxRetries C) h1 rs.
Proof. exact @adaptive_failure. Qed.
Print Assumptions C14_adaptive_failure_justified.

Example C14_case_maxretries :
  existsb is_failure (a_history (a_run (halving 1) (AConfig 1 false false d_appnack)
     [AeData 0 (dat [] (FbiSegment 1)); AeTick 20; AeRto []; AeTick 20; AeRto []])) = true.
Proof. vm_compute. reflexivity. Qed.
Example C14_case_nofinal :
  exists h1, a_history (a_run (halving 1) cfg [AeNack 0 NrNoRoute]) = h1 ++ [OFail RNoFinal].
Proof. eexists [_; _; _]. vm_compute. reflexivity. Qed.

(** C16 is false: with the default options (15 retries) and a window of 2, one fatal Nack for
    the first segment leaves nothing outstanding and nothing scheduled that could ever
    change this: no matter what happens next (short of a cancel by the user), the pipeline
    never reports anything. *)
Theorem C16_adaptive_never_hangs_refuted :
  exists (P : policy Z unit) (C : aconfig) (es : list aevent),
    p_floor P (p_initW P) = 2 /\ c_maxRetries C = 15 /\
    forall es', ~ In AeCancel es' ->
      let h := a_history (a_run P C (es ++ es')) in
      existsb is_over h = false /\ outstanding h = [].
Proof.
  exists (halving 2), cfg, run_hang. split; [reflexivity|]. split; [reflexivity|].
  intros es' Hn. cbv zeta.
  assert (E : a_tr (a_run (halving 2) cfg (run_hang ++ es')) = a_tr (a_run (halving 2) cfg run_hang)).
  { unfold a_run. rewrite fold_left_app. apply hang_forever; [reflexivity|reflexivity|exact Hn]. }
  unfold a_history. rewrite E. vm_compute. auto.
Qed.
Print Assumptions C16_adaptive_never_hangs_refuted.

(** C17: between a window decrease and the next one, if that is caused by a loss, the lost
    segment was first sent (and lost) after the earlier decrease. *)
Theorem C17_adaptive_one_decrease_per_loss :
  forall {W R} (P : policy W R) (C : aconfig) (es : list aevent) h1 o h2 seg h3,
    c_disableCwa C = false ->
    a_history (a_run P C es) = h1 ++ o :: h2 ++ ODecrLoss seg :: h3 ->
    is_decr o = true -> existsb is_decr h2 = false ->
    In (OInterest seg false) h2 /\ exists l, In l h2 /\ lost seg l = true.
Proof. exact @adaptive_decr_loss. Qed.
Print Assumptions C17_adaptive_one_decrease_per_loss.

(** ... and if it is caused by a congestion mark, some segment first sent after the earlier
    decrease has arrived. *)
Theorem C17_adaptive_one_decrease_per_mark :
  forall {W R} (P : policy W R) (C : aconfig) (es : list aevent) h1 o h2 seg h3,
    c_disableCwa C = false ->
    a_history (a_run P C es) = h1 ++ o :: h2 ++ ODecrMark seg :: h3 ->
    is_decr o = true -> existsb is_decr h2 = false ->
    (exists d, In (OGotData seg d) (h1 ++ o :: h2) /\ d_mark d = true) /\
    exists k, In (OInterest k false) h2 /\ (k = seg \/ In k (map fst (deliveries (h1 ++ o :: h2)))).
Proof. exact @adaptive_decr_mark. Qed.
Print Assumptions C17_adaptive_one_decrease_per_mark.

Example C17_case :
  let h := a_history (a_run (halving 4) cfg run_loss) in
  nth_error h 6 = Some (ODecrLoss 2) /\ nth_error h 27 = Some (ODecrLoss 4) /\
  existsb is_decr (firstn 20 (skipn 7 h)) = false.
Proof. vm_compute. auto. Qed.
Example C17_case_mark :
  let h := a_history (a_run (halving 2) cfg
     [AeData 0 (dat [] FbiAbsent); AeData 1 (marked [] FbiAbsent); AeData 2 (dat [] FbiAbsent);
      AeData 3 (marked [] FbiAbsent)]) in
  nth_error h 8 = Some (ODecrMark 1) /\ nth_error h 18 = Some (ODecrMark 3) /\
  existsb is_decr (firstn 9 (skipn 9 h)) = false.
Proof. vm_compute. auto. Qed.

(** C20: the summary is truthful. *)
Theorem C20_adaptive_summary_truthful :
  forall {W R} (P : policy W R) (C : aconfig) (es : list aevent),
    printSummary (a_run P C es) = summary_of (a_history (a_run P C es)).
Proof. exact @adaptive_summary. Qed.
Print Assumptions C20_adaptive_summary_truthful.

Theorem C20_adaptive_retransmissions_need_losses :
  forall {W R} (P : policy W R) (C : aconfig) (es : list aevent),
    su_retx (printSummary (a_run P C es)) + su_skipped (printSummary (a_run P C es)) <=
    count (fun o => match o with OGotNack _ NrCongestion | OGotExpiry _ | ORto _ => true | _ => false end)
          (a_history (a_run P C es)).
Proof. exact @adaptive_retx_le_lost. Qed.
Print Assumptions C20_adaptive_retransmissions_need_losses.

Example C20_case :
  printSummary (a_run (halving 3) cfg run3) = Summary 3 5 0 0 3 1 1 5 2.
Proof. vm_compute. reflexivity. Qed.

(** C50: RTT samples are never taken from retransmitted segments (Karn's algorithm), are not
    negative, and carry a positive expected number of samples. *)
Theorem C50_rtt_samples_unambiguous :
  forall {W R} (P : policy W R) (C : aconfig) (es : list aevent) h1 seg rtt n h2,
    a_history (a_run P C es) = h1 ++ ORttSample seg rtt n :: h2 ->
    0 <= rtt /\ 1 <= n /\ count (is_resend seg) h1 = 0.
Proof. exact @adaptive_karn. Qed.
Print Assumptions C50_rtt_samples_unambiguous.

Example C50_case :
  nth_error (a_history (a_run (halving 3) cfg run3)) 6 = Some (ORttSample 0 0 1).
Proof. vm_compute. reflexivity. Qed.
