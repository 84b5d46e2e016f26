(** The times that the adaptive pipelines measure, wait and report: C77.  Any window policy, any
    estimator, any options, any sequence of network and timer events. *)
From Verif Require Import Base PipelineBase PipelineSpec AdaptiveModel AdaptiveWitness Double DumpModel ChunksTextSpec CatMsgModel
  TimesSpec AdaptiveTimes AdaptiveTold.
From Coq Require Import List.
Import ListNotations.
Local Open Scope Z_scope.

(** A measured round-trip time is the time that has passed between sending the Interest for the
    segment and receiving its Data; that Interest was the only one for the segment. *)
Theorem C77_measurement :
  forall W R (P : policy W R) (C : aconfig) (es : list aevent) (e : aevent) new k rtt n,
    let hist es := a_history (a_run P C es) in
    hist (es ++ [e]) = hist es ++ new -> In (ORttSample k rtt n) new ->
    count (is_send k) (hist es) = 1 /\
    exists d es1 es2, e = AeData k d /\ es = es1 ++ es2 /\ sent_at hist k es1 es2 /\ rtt = passed es2.
Proof. exact (fun W R P C es e new k rtt n Hh Ho => conj (rtt_only P C es e new k rtt n Hh Ho) (rtt_right P C es e new k rtt n Hh Ho)). Qed.
Print Assumptions C77_measurement.

(** An Interest is declared lost by the timer only if more time has passed since it was sent than
    the estimator allowed then. *)
Theorem C77_timeout_due :
  forall W R (P : policy W R) (C : aconfig) (es : list aevent) (e : aevent) new k,
    let hist es := a_history (a_run P C es) in
    hist (es ++ [e]) = hist es ++ new -> In (ORto k) new ->
    exists es1 es2, es = es1 ++ es2 /\ sent_at hist k es1 es2 /\ p_rto P (estimate P (hist es1)) < passed es2.
Proof. exact @rto_right. Qed.
Print Assumptions C77_timeout_due.

(** And the next check of the timer finds every Interest for which this is the case, in whatever
    order the segments are visited. *)
Theorem C77_timeout_found :
  forall W R (P : policy W R) (C : aconfig) (order : list N) k (es1 es2 : list aevent),
    let hist es := a_history (a_run P C es) in
    let es := es1 ++ es2 in
    existsb is_over (hist es) = false -> ~ In OThrow (hist es) -> In k (outstanding (hist es)) ->
    sent_at hist k es1 es2 -> p_rto P (estimate P (hist es1)) < passed es2 ->
    exists new, hist (es ++ [AeRto order]) = hist es ++ new /\ In (ORto k) new.
Proof. exact @rto_all. Qed.
Print Assumptions C77_timeout_found.

(** The numbers that are reported with --verbose: the time since the latest Interest for the
    segment was sent and what the estimator allowed for it; the window and the threshold after a
    decrease. *)
Theorem C77_reported :
  forall W R (P : policy W R) (C : aconfig) (cwnd ssthresh : W -> f64) (summary : @astate W R -> text) (es : list aevent) (e : aevent),
    let hist es := a_history (a_run P C es) in
    let s' := a_run P C (es ++ [e]) in
    exists msgs, ma_run P C cwnd ssthresh summary (es ++ [e]) = ma_run P C cwnd ssthresh summary es ++ msgs /\
    forall m, In m msgs ->
    match m with
    | MReceivedRtt k rtt rto =>
        (exists d, e = AeData k d) /\
        exists es1 es2, es = es1 ++ es2 /\ sent_at hist k es1 es2 /\ rtt = passed es2 /\ rto = p_rto P (estimate P (hist es1))
    | MMark k d w => e = AeData k d /\ w = cwnd (a_cwnd s')
    | MLoss w t => w = cwnd (a_cwnd s') /\ t = ssthresh (a_cwnd s')
    | _ => True
    end.
Proof. exact (fun W R P C cwnd ssthresh summary es e => ex_intro _ _ (conj (ma_run_snoc P C cwnd ssthresh summary es e) (told_right P C cwnd ssthresh summary es e))). Qed.
Print Assumptions C77_reported.

(** The retransmission timeout is 10; segment 0 answers after 7, segment 3, requested then, is
    declared lost 13 later. *)
Definition times_run : list aevent := [AeTick 7; AeData 0 (dat [] FbiAbsent); AeTick 3; AeTick 10].
Example C77_case :
  let hist es := a_history (a_run (halving 3) cfg es) in
  hist (firstn 2 times_run) = hist (firstn 1 times_run) ++ skipn 3 (hist (firstn 2 times_run)) /\
  In (ORttSample 0 7 1) (skipn 3 (hist (firstn 2 times_run))) /\
  sent_at hist 0 [] [AeTick 7] /\ passed [AeTick 7] = 7 /\
  sent_at hist 3 (firstn 2 times_run) (skipn 2 times_run) /\ passed (skipn 2 times_run) = 13 /\
  existsb is_over (hist times_run) = false /\ existsb (fun o => match o with OThrow => true | _ => false end) (hist times_run) = false /\
  outstanding (hist times_run) = [3; 2; 1]%N /\
  map (fun k => existsb (fun o => match o with ORto k' => N.eqb k k' | _ => false end) (hist (times_run ++ [AeRto []]))) [0; 1; 2; 3; 4]%N =
    [false; true; true; true; false] /\
  flat_map (fun m => match m with MReceivedRtt k rtt rto => [(Z.of_N k, rtt, rto)] | MLoss _ _ => [(0, 0, 0)] | _ => [] end)
    (ma_run (halving 3) cfg f_of_Z f_of_Z (fun _ => []) (times_run ++ [AeRto []])) = [(0, 7, 10); (0, 0, 0)].
Proof. vm_compute. repeat split; auto 10. Qed.
