(** Model of tools/chunks/catchunks/pipeline-interests-adaptive.{hpp,cpp}.

    The window policy (pipeline-interests-aimd.cpp, pipeline-interests-cubic.cpp) and the
    RTT estimator (ndn-cxx util/rtt-estimator) are arbitrary functions collected in
    [policy]; they are instantiated in WindowModel.

    Environment (ndn-cxx Face and Scheduler, trusted): for an expressed Interest the
    Face calls at most one of handleData / handleNack / handleLifetimeExpiration, and
    none after the ScopedPendingInterestHandle was destroyed or reassigned.  This is
    the [si_live] flag: true iff the Face still holds the pending Interest.  Data that
    satisfies an Interest without CanBePrefix has the Interest's name, hence its
    segment number.

    BOOST_ASSERTs are recorded in the trace ([OAssert]) and execution goes on, as in a
    release build.  An exception that leaves a handler ends the program: [a_crashed].

    Not modelled: verbose output, printOptions, the afterCwndChange / afterRttMeasurement
    signals other than through the trace, Interest fields other than the segment. *)
From Verif Require Import Base PipelineBase FetcherModel.

(** pipeline-interests-adaptive.hpp L48-52 *)
Inductive segstate := FirstTimeSent | InRetxQueue | Retransmitted.

(** pipeline-interests-adaptive.hpp L60-66; [si_live] stands for interestHdl *)
Record seginfo := SegInfo {
  si_live     : bool;
  si_timeSent : Z;
  si_rto      : Z;
  si_state    : segstate
}.

Definition state_eqb (a b : segstate) : bool :=
  match a, b with
  | FirstTimeSent, FirstTimeSent | InRetxQueue, InRetxQueue | Retransmitted, Retransmitted => true
  | _, _ => false
  end.

(** Window policy and RTT estimator.  [W]: congestion window with all its auxiliary
    variables; [R]: estimator state; times in nanoseconds. *)
Record policy (W R : Type) := Policy {
  p_initW   : W;
  p_initR   : R;
  p_floor   : W -> Z;               (* static_cast<int64_t>(m_cwnd), adaptive.cpp L175 *)
  p_incr    : Z -> R -> W -> W;     (* increaseWindow() at a given time *)
  p_decr    : Z -> W -> W;          (* decreaseWindow() at a given time *)
  p_rto     : R -> Z;               (* getEstimatedRto() *)
  p_sample  : Z -> Z -> R -> R;     (* addMeasurement(rtt, nExpectedSamples) *)
  p_backoff : R -> R                (* backoffRto() *)
}.
Arguments Policy {W R}.
Arguments p_initW {W R}. Arguments p_initR {W R}. Arguments p_floor {W R}.
Arguments p_incr {W R}. Arguments p_decr {W R}. Arguments p_rto {W R}.
Arguments p_sample {W R}. Arguments p_backoff {W R}.

(** options.hpp: the options that influence the control flow; [c_cbThrows]: the data
    callback throws on this packet (Consumer::handleData does on an application Nack) *)
Record aconfig := AConfig {
  c_maxRetries      : Z;
  c_ignoreCongMarks : bool;
  c_disableCwa      : bool;
  c_cbThrows        : data -> bool
}.

Section Adaptive.
Context {W R : Type}.

(** pipeline-interests-adaptive.hpp L194-226 members; [a_timer]: m_checkRtoEvent is
    scheduled; [a_now]: steady_clock; [a_tr]: the observable trace, latest first *)
Record astate := AState {
  a_b : pbase;
  a_cwnd : W;
  a_rtt : R;
  a_highData : N;
  a_highInterest : N;
  a_recPoint : N;
  a_nInFlight : Z;
  a_nLossDecr : Z;
  a_nMarkDecr : Z;
  a_nTimeouts : Z;
  a_nSkipped : Z;
  a_nRetx : Z;
  a_nCongMarks : Z;
  a_nSent : Z;
  a_segs : list (N * seginfo);
  a_retxCount : list (N * Z);
  a_retxq : list N;
  a_hasFailure : bool;
  a_failedSeg : N;
  a_failReason : freason;
  a_now : Z;
  a_timer : bool;
  a_crashed : bool;
  a_tr : list pobs
}.

(** functional updates of single members *)
Definition set_b (v : pbase) (s : astate) : astate :=
  AState v (a_cwnd s) (a_rtt s) (a_highData s) (a_highInterest s) (a_recPoint s) (a_nInFlight s) (a_nLossDecr s) (a_nMarkDecr s) (a_nTimeouts s) (a_nSkipped s) (a_nRetx s) (a_nCongMarks s) (a_nSent s) (a_segs s) (a_retxCount s) (a_retxq s) (a_hasFailure s) (a_failedSeg s) (a_failReason s) (a_now s) (a_timer s) (a_crashed s) (a_tr s).
Definition set_cwnd (v : W) (s : astate) : astate :=
  AState (a_b s) v (a_rtt s) (a_highData s) (a_highInterest s) (a_recPoint s) (a_nInFlight s) (a_nLossDecr s) (a_nMarkDecr s) (a_nTimeouts s) (a_nSkipped s) (a_nRetx s) (a_nCongMarks s) (a_nSent s) (a_segs s) (a_retxCount s) (a_retxq s) (a_hasFailure s) (a_failedSeg s) (a_failReason s) (a_now s) (a_timer s) (a_crashed s) (a_tr s).
Definition set_rtt (v : R) (s : astate) : astate :=
  AState (a_b s) (a_cwnd s) v (a_highData s) (a_highInterest s) (a_recPoint s) (a_nInFlight s) (a_nLossDecr s) (a_nMarkDecr s) (a_nTimeouts s) (a_nSkipped s) (a_nRetx s) (a_nCongMarks s) (a_nSent s) (a_segs s) (a_retxCount s) (a_retxq s) (a_hasFailure s) (a_failedSeg s) (a_failReason s) (a_now s) (a_timer s) (a_crashed s) (a_tr s).
Definition set_highData (v : N) (s : astate) : astate :=
  AState (a_b s) (a_cwnd s) (a_rtt s) v (a_highInterest s) (a_recPoint s) (a_nInFlight s) (a_nLossDecr s) (a_nMarkDecr s) (a_nTimeouts s) (a_nSkipped s) (a_nRetx s) (a_nCongMarks s) (a_nSent s) (a_segs s) (a_retxCount s) (a_retxq s) (a_hasFailure s) (a_failedSeg s) (a_failReason s) (a_now s) (a_timer s) (a_crashed s) (a_tr s).
Definition set_highInterest (v : N) (s : astate) : astate :=
  AState (a_b s) (a_cwnd s) (a_rtt s) (a_highData s) v (a_recPoint s) (a_nInFlight s) (a_nLossDecr s) (a_nMarkDecr s) (a_nTimeouts s) (a_nSkipped s) (a_nRetx s) (a_nCongMarks s) (a_nSent s) (a_segs s) (a_retxCount s) (a_retxq s) (a_hasFailure s) (a_failedSeg s) (a_failReason s) (a_now s) (a_timer s) (a_crashed s) (a_tr s).
Definition set_recPoint (v : N) (s : astate) : astate :=
  AState (a_b s) (a_cwnd s) (a_rtt s) (a_highData s) (a_highInterest s) v (a_nInFlight s) (a_nLossDecr s) (a_nMarkDecr s) (a_nTimeouts s) (a_nSkipped s) (a_nRetx s) (a_nCongMarks s) (a_nSent s) (a_segs s) (a_retxCount s) (a_retxq s) (a_hasFailure s) (a_failedSeg s) (a_failReason s) (a_now s) (a_timer s) (a_crashed s) (a_tr s).
Definition set_nInFlight (v : Z) (s : astate) : astate :=
  AState (a_b s) (a_cwnd s) (a_rtt s) (a_highData s) (a_highInterest s) (a_recPoint s) v (a_nLossDecr s) (a_nMarkDecr s) (a_nTimeouts s) (a_nSkipped s) (a_nRetx s) (a_nCongMarks s) (a_nSent s) (a_segs s) (a_retxCount s) (a_retxq s) (a_hasFailure s) (a_failedSeg s) (a_failReason s) (a_now s) (a_timer s) (a_crashed s) (a_tr s).
Definition set_nLossDecr (v : Z) (s : astate) : astate :=
  AState (a_b s) (a_cwnd s) (a_rtt s) (a_highData s) (a_highInterest s) (a_recPoint s) (a_nInFlight s) v (a_nMarkDecr s) (a_nTimeouts s) (a_nSkipped s) (a_nRetx s) (a_nCongMarks s) (a_nSent s) (a_segs s) (a_retxCount s) (a_retxq s) (a_hasFailure s) (a_failedSeg s) (a_failReason s) (a_now s) (a_timer s) (a_crashed s) (a_tr s).
Definition set_nMarkDecr (v : Z) (s : astate) : astate :=
  AState (a_b s) (a_cwnd s) (a_rtt s) (a_highData s) (a_highInterest s) (a_recPoint s) (a_nInFlight s) (a_nLossDecr s) v (a_nTimeouts s) (a_nSkipped s) (a_nRetx s) (a_nCongMarks s) (a_nSent s) (a_segs s) (a_retxCount s) (a_retxq s) (a_hasFailure s) (a_failedSeg s) (a_failReason s) (a_now s) (a_timer s) (a_crashed s) (a_tr s).
Definition set_nTimeouts (v : Z) (s : astate) : astate :=
  AState (a_b s) (a_cwnd s) (a_rtt s) (a_highData s) (a_highInterest s) (a_recPoint s) (a_nInFlight s) (a_nLossDecr s) (a_nMarkDecr s) v (a_nSkipped s) (a_nRetx s) (a_nCongMarks s) (a_nSent s) (a_segs s) (a_retxCount s) (a_retxq s) (a_hasFailure s) (a_failedSeg s) (a_failReason s) (a_now s) (a_timer s) (a_crashed s) (a_tr s).
Definition set_nSkipped (v : Z) (s : astate) : astate :=
  AState (a_b s) (a_cwnd s) (a_rtt s) (a_highData s) (a_highInterest s) (a_recPoint s) (a_nInFlight s) (a_nLossDecr s) (a_nMarkDecr s) (a_nTimeouts s) v (a_nRetx s) (a_nCongMarks s) (a_nSent s) (a_segs s) (a_retxCount s) (a_retxq s) (a_hasFailure s) (a_failedSeg s) (a_failReason s) (a_now s) (a_timer s) (a_crashed s) (a_tr s).
Definition set_nRetx (v : Z) (s : astate) : astate :=
  AState (a_b s) (a_cwnd s) (a_rtt s) (a_highData s) (a_highInterest s) (a_recPoint s) (a_nInFlight s) (a_nLossDecr s) (a_nMarkDecr s) (a_nTimeouts s) (a_nSkipped s) v (a_nCongMarks s) (a_nSent s) (a_segs s) (a_retxCount s) (a_retxq s) (a_hasFailure s) (a_failedSeg s) (a_failReason s) (a_now s) (a_timer s) (a_crashed s) (a_tr s).
Definition set_nCongMarks (v : Z) (s : astate) : astate :=
  AState (a_b s) (a_cwnd s) (a_rtt s) (a_highData s) (a_highInterest s) (a_recPoint s) (a_nInFlight s) (a_nLossDecr s) (a_nMarkDecr s) (a_nTimeouts s) (a_nSkipped s) (a_nRetx s) v (a_nSent s) (a_segs s) (a_retxCount s) (a_retxq s) (a_hasFailure s) (a_failedSeg s) (a_failReason s) (a_now s) (a_timer s) (a_crashed s) (a_tr s).
Definition set_nSent (v : Z) (s : astate) : astate :=
  AState (a_b s) (a_cwnd s) (a_rtt s) (a_highData s) (a_highInterest s) (a_recPoint s) (a_nInFlight s) (a_nLossDecr s) (a_nMarkDecr s) (a_nTimeouts s) (a_nSkipped s) (a_nRetx s) (a_nCongMarks s) v (a_segs s) (a_retxCount s) (a_retxq s) (a_hasFailure s) (a_failedSeg s) (a_failReason s) (a_now s) (a_timer s) (a_crashed s) (a_tr s).
Definition set_segs (v : list (N * seginfo)) (s : astate) : astate :=
  AState (a_b s) (a_cwnd s) (a_rtt s) (a_highData s) (a_highInterest s) (a_recPoint s) (a_nInFlight s) (a_nLossDecr s) (a_nMarkDecr s) (a_nTimeouts s) (a_nSkipped s) (a_nRetx s) (a_nCongMarks s) (a_nSent s) v (a_retxCount s) (a_retxq s) (a_hasFailure s) (a_failedSeg s) (a_failReason s) (a_now s) (a_timer s) (a_crashed s) (a_tr s).
Definition set_retxCount (v : list (N * Z)) (s : astate) : astate :=
  AState (a_b s) (a_cwnd s) (a_rtt s) (a_highData s) (a_highInterest s) (a_recPoint s) (a_nInFlight s) (a_nLossDecr s) (a_nMarkDecr s) (a_nTimeouts s) (a_nSkipped s) (a_nRetx s) (a_nCongMarks s) (a_nSent s) (a_segs s) v (a_retxq s) (a_hasFailure s) (a_failedSeg s) (a_failReason s) (a_now s) (a_timer s) (a_crashed s) (a_tr s).
Definition set_retxq (v : list N) (s : astate) : astate :=
  AState (a_b s) (a_cwnd s) (a_rtt s) (a_highData s) (a_highInterest s) (a_recPoint s) (a_nInFlight s) (a_nLossDecr s) (a_nMarkDecr s) (a_nTimeouts s) (a_nSkipped s) (a_nRetx s) (a_nCongMarks s) (a_nSent s) (a_segs s) (a_retxCount s) v (a_hasFailure s) (a_failedSeg s) (a_failReason s) (a_now s) (a_timer s) (a_crashed s) (a_tr s).
Definition set_hasFailure (v : bool) (s : astate) : astate :=
  AState (a_b s) (a_cwnd s) (a_rtt s) (a_highData s) (a_highInterest s) (a_recPoint s) (a_nInFlight s) (a_nLossDecr s) (a_nMarkDecr s) (a_nTimeouts s) (a_nSkipped s) (a_nRetx s) (a_nCongMarks s) (a_nSent s) (a_segs s) (a_retxCount s) (a_retxq s) v (a_failedSeg s) (a_failReason s) (a_now s) (a_timer s) (a_crashed s) (a_tr s).
Definition set_failedSeg (v : N) (s : astate) : astate :=
  AState (a_b s) (a_cwnd s) (a_rtt s) (a_highData s) (a_highInterest s) (a_recPoint s) (a_nInFlight s) (a_nLossDecr s) (a_nMarkDecr s) (a_nTimeouts s) (a_nSkipped s) (a_nRetx s) (a_nCongMarks s) (a_nSent s) (a_segs s) (a_retxCount s) (a_retxq s) (a_hasFailure s) v (a_failReason s) (a_now s) (a_timer s) (a_crashed s) (a_tr s).
Definition set_failReason (v : freason) (s : astate) : astate :=
  AState (a_b s) (a_cwnd s) (a_rtt s) (a_highData s) (a_highInterest s) (a_recPoint s) (a_nInFlight s) (a_nLossDecr s) (a_nMarkDecr s) (a_nTimeouts s) (a_nSkipped s) (a_nRetx s) (a_nCongMarks s) (a_nSent s) (a_segs s) (a_retxCount s) (a_retxq s) (a_hasFailure s) (a_failedSeg s) v (a_now s) (a_timer s) (a_crashed s) (a_tr s).
Definition set_now (v : Z) (s : astate) : astate :=
  AState (a_b s) (a_cwnd s) (a_rtt s) (a_highData s) (a_highInterest s) (a_recPoint s) (a_nInFlight s) (a_nLossDecr s) (a_nMarkDecr s) (a_nTimeouts s) (a_nSkipped s) (a_nRetx s) (a_nCongMarks s) (a_nSent s) (a_segs s) (a_retxCount s) (a_retxq s) (a_hasFailure s) (a_failedSeg s) (a_failReason s) v (a_timer s) (a_crashed s) (a_tr s).
Definition set_timer (v : bool) (s : astate) : astate :=
  AState (a_b s) (a_cwnd s) (a_rtt s) (a_highData s) (a_highInterest s) (a_recPoint s) (a_nInFlight s) (a_nLossDecr s) (a_nMarkDecr s) (a_nTimeouts s) (a_nSkipped s) (a_nRetx s) (a_nCongMarks s) (a_nSent s) (a_segs s) (a_retxCount s) (a_retxq s) (a_hasFailure s) (a_failedSeg s) (a_failReason s) (a_now s) v (a_crashed s) (a_tr s).
Definition set_crashed (v : bool) (s : astate) : astate :=
  AState (a_b s) (a_cwnd s) (a_rtt s) (a_highData s) (a_highInterest s) (a_recPoint s) (a_nInFlight s) (a_nLossDecr s) (a_nMarkDecr s) (a_nTimeouts s) (a_nSkipped s) (a_nRetx s) (a_nCongMarks s) (a_nSent s) (a_segs s) (a_retxCount s) (a_retxq s) (a_hasFailure s) (a_failedSeg s) (a_failReason s) (a_now s) (a_timer s) v (a_tr s).
Definition set_tr (v : list pobs) (s : astate) : astate :=
  AState (a_b s) (a_cwnd s) (a_rtt s) (a_highData s) (a_highInterest s) (a_recPoint s) (a_nInFlight s) (a_nLossDecr s) (a_nMarkDecr s) (a_nTimeouts s) (a_nSkipped s) (a_nRetx s) (a_nCongMarks s) (a_nSent s) (a_segs s) (a_retxCount s) (a_retxq s) (a_hasFailure s) (a_failedSeg s) (a_failReason s) (a_now s) (a_timer s) (a_crashed s) v.
Definition emit (o : pobs) (s : astate) : astate := set_tr (o :: a_tr s) s.

Variable P : policy W R.
Variable C : aconfig.

(** default member initializers, pipeline-interests-adaptive.hpp L194-226, and
    constructor pipeline-interests-adaptive.cpp L38-47 *)
Definition a_init : astate :=
  AState b_init (p_initW P) (p_initR P) 0 0 0 0 0 0 0 0 0 0 0 [] [] [] false 0 RNoFinal 0 false false [].

Definition isStopping (s : astate) : bool := b_stopping (a_b s).

(** pipeline-interests-adaptive.cpp L71-76 *)
Definition doCancel (s : astate) : astate := set_segs [] (set_timer false s).

(** pipeline-interests.cpp L66-74 *)
Definition cancel (s : astate) : astate :=
  if isStopping s then s else doCancel (set_b (b_setStopping (a_b s)) s).

(** pipeline-interests.cpp L99-110.  The callback is posted to the io_context; nothing
    observable can happen in between because the pipeline is stopping. *)
Definition onFailure (r : freason) (s : astate) : astate :=
  if isStopping s then s else emit (OFail r) (cancel s).

(** pipeline-interests-adaptive.cpp L390-403 *)
Definition cancelGreater (seg : N) (s : astate) : astate :=
  let gone := filter (fun e => N.ltb seg (fst e)) (a_segs s) in
  let s := set_tr (map (fun e => OAbandon (fst e)) gone ++ a_tr s) s in
  set_nInFlight (a_nInFlight s - Z.of_nat (length gone))
    (set_segs (filter (fun e => negb (N.ltb seg (fst e))) (a_segs s)) s).

(** pipeline-interests-adaptive.cpp L364-388 *)
Definition handleFail (seg : N) (r : freason) (s : astate) : astate :=
  if isStopping s then s
  else if b_hasFbi (a_b s) && N.leb seg (b_last (a_b s)) then onFailure r s
  else if negb (b_hasFbi (a_b s)) then
    let s := set_segs (kdel seg (a_segs s)) (emit (OAbandon seg) s) in
    let s := set_nInFlight (a_nInFlight s - 1) s in
    match a_segs s with
    | [] => onFailure RNoFinal s
    | _ :: _ =>
        let s := cancelGreater seg s in
        set_failReason r (set_failedSeg seg (set_hasFailure true s))
    end
  else s.

(** pipeline-interests-adaptive.cpp L150-168 *)
Definition express (seg : N) (retx : bool) (s : astate) : astate :=
  let info := SegInfo true (a_now s) (p_rto P (a_rtt s))
                      (if retx then Retransmitted else FirstTimeSent) in
  let s := emit (OInterest seg retx) s in
  let s := set_segs (kset seg info (a_segs s)) s in
  let s := set_nInFlight (a_nInFlight s + 1) s in
  let s := set_nSent (a_nSent s + 1) s in
  if retx then set_nRetx (a_nRetx s + 1) s
  else set_highInterest seg s.

(** pipeline-interests-adaptive.cpp L109-169 *)
Definition sendInterest (seg : N) (retx : bool) (s : astate) : astate :=
  if isStopping s then s
  else if b_hasFbi (a_b s) && N.ltb (b_last (a_b s)) seg then s
  else if negb retx && a_hasFailure s then s
  else if retx then
    match kget seg (a_retxCount s) with
    | None => express seg true (set_retxCount (kset seg 1 (a_retxCount s)) s)
    | Some n =>
        let s := set_retxCount (kset seg (n + 1) (a_retxCount s)) s in
        if negb (Z.eqb (c_maxRetries C) MAX_RETRIES_INFINITE) && (c_maxRetries C <? n + 1)
        then handleFail seg (RMaxRetries seg) s
        else express seg true s
    end
  else express seg false s.

(** pipeline-interests-adaptive.cpp L178-184: pop queued segments that are no longer
    tracked *)
Fixpoint dropSkipped (q : list N) (s : astate) : astate :=
  match q with
  | [] => set_retxq [] s
  | seg :: q' =>
      if kmem seg (a_segs s) then set_retxq (seg :: q') s
      else dropSkipped q' (emit (OSkip seg) (set_nSkipped (a_nSkipped s + 1) s))
  end.

(** pipeline-interests-adaptive.cpp L178-191: one unit of available window *)
Definition sendOne (s : astate) : astate :=
  let s := dropSkipped (a_retxq s) s in
  match a_retxq s with
  | seg :: q => sendInterest seg true (set_retxq q s)
  | [] => let '(seg, b) := b_getNext (a_b s) in sendInterest seg false (set_b b s)
  end.

Fixpoint iter (n : nat) (f : astate -> astate) (s : astate) : astate :=
  match n with O => s | S n => iter n f (f s) end.

(** pipeline-interests-adaptive.cpp L171-193 *)
Definition schedulePackets (s : astate) : astate :=
  let s := if a_nInFlight s <? 0 then emit OAssert s else s in
  iter (Z.to_nat (p_floor P (a_cwnd s) - a_nInFlight s)) sendOne s.

(** pipeline-interests-aimd.cpp L44-65, pipeline-interests-cubic.cpp L47-112: both
    functions end by emitting afterCwndChange with the new window *)
Definition decreaseWindow (s : astate) : astate :=
  let w := p_decr P (a_now s) (a_cwnd s) in emit (OWindow (p_floor P w)) (set_cwnd w s).
Definition increaseWindow (s : astate) : astate :=
  let w := p_incr P (a_now s) (a_rtt s) (a_cwnd s) in emit (OWindow (p_floor P w)) (set_cwnd w s).

(** pipeline-interests-adaptive.cpp L336-353 *)
Definition recordTimeout (seg : N) (s : astate) : astate :=
  if c_disableCwa C || N.ltb (a_recPoint s) seg then
    let s := set_recPoint (a_highInterest s) s in
    let s := decreaseWindow s in
    let s := set_rtt (p_backoff P (a_rtt s)) s in
    emit (ODecrLoss seg) (set_nLossDecr (a_nLossDecr s + 1) s)
  else s.

Definition throw (s : astate) : astate := set_crashed true (emit OThrow s).

(** pipeline-interests-adaptive.cpp L355-362; [at] throws if the segment is not tracked *)
Definition enqueueForRetransmission (seg : N) (s : astate) : astate :=
  let s := if 0 <? a_nInFlight s then s else emit OAssert s in
  let s := set_nInFlight (a_nInFlight s - 1) s in
  let s := set_retxq (a_retxq s ++ [seg]) s in
  match kget seg (a_segs s) with
  | None => throw s
  | Some i => set_segs (kset seg (SegInfo (si_live i) (si_timeSent i) (si_rto i) InRetxQueue) (a_segs s)) s
  end.

(** Iteration order of std::unordered_map: chosen by the environment.  Whatever list it
    proposes, every key is visited exactly once. *)
Definition visit_order (order ks : list N) : list N :=
  let ord := nodup N.eq_dec (filter (fun k => if in_dec N.eq_dec k ks then true else false) order) in
  ord ++ filter (fun k => if in_dec N.eq_dec k ord then false else true) ks.

(** pipeline-interests-adaptive.cpp L87-98, one iteration; the accumulator is
    (state, hasTimeout, highTimeoutSeg) *)
Definition checkRto1 (acc : astate * bool * N) (seg : N) : astate * bool * N :=
  let '(s, has, high) := acc in
  match kget seg (a_segs s) with
  | None => acc
  | Some i =>
      if negb (state_eqb (si_state i) InRetxQueue) && (si_rto i <? a_now s - si_timeSent i)
      then let s := emit (ORto seg) (set_nTimeouts (a_nTimeouts s + 1) s) in
           (enqueueForRetransmission seg s, true, N.max high seg)
      else acc
  end.

(** pipeline-interests-adaptive.cpp L78-107 *)
Definition checkRto (order : list N) (s : astate) : astate :=
  if isStopping s then s
  else
    let '(s, has, high) :=
      fold_left checkRto1 (visit_order order (keys (a_segs s))) (s, false, 0%N) in
    if a_crashed s then s else
    let s := if has then schedulePackets (recordTimeout high s) else s in
    set_timer true s.

(** pipeline-interests.cpp L90-97 *)
Definition onData (seg : N) (d : data) (s : astate) : astate :=
  let s := emit (ODeliver seg d) (set_b (b_received d (a_b s)) s) in
  if c_cbThrows C d then throw s else s.

(** pipeline-interests-adaptive.cpp L54-69; run() of pipeline-interests.cpp L49-64 *)
Definition doRun (s : astate) : astate :=
  if b_allReceived (a_b s) then emit ODone (cancel s)
  else schedulePackets (set_timer true s).

(** pipeline-interests-adaptive.cpp L204-215: returns (state, false) when the handler
    must return *)
Definition learnFbi (d : data) (s : astate) : astate * bool :=
  if b_hasFbi (a_b s) then (s, true)
  else match d_fbi d with
       | FbiAbsent => (s, true)
       | FbiInvalid => (throw s, false)
       | FbiSegment n =>
           let s := set_b (b_setFbi n (a_b s)) s in
           let s := cancelGreater n s in
           if a_hasFailure s && N.leb (a_failedSeg s) n
           then (onFailure (a_failReason s) s, false)
           else (set_hasFailure false s, true)
       end.

(** pipeline-interests-adaptive.cpp L239-262 *)
Definition adaptWindow (seg : N) (d : data) (s : astate) : astate :=
  if d_mark d then
    let s := set_nCongMarks (a_nCongMarks s + 1) s in
    if negb (c_ignoreCongMarks C) then
      if c_disableCwa C || N.ltb (a_recPoint s) (a_highData s) then
        let s := set_recPoint (a_highInterest s) s in
        let s := set_nMarkDecr (a_nMarkDecr s + 1) s in
        decreaseWindow (emit (ODecrMark seg) s)
      else s
    else increaseWindow s
  else increaseWindow s.

(** pipeline-interests-adaptive.cpp L266-277 *)
Definition sampleRtt (seg : N) (i : seginfo) (rtt : Z) (s : astate) : astate :=
  if (state_eqb (si_state i) FirstTimeSent || state_eqb (si_state i) InRetxQueue)
     && negb (kmem seg (a_retxCount s))
  then let n := Z.max (Z.shiftr (a_nInFlight s + 1) 1) 1 in
       emit (ORttSample seg rtt n) (set_rtt (p_sample P rtt n (a_rtt s)) s)
  else s.

(** pipeline-interests-adaptive.cpp L195-291 *)
Definition handleData (seg : N) (d : data) (s : astate) : astate :=
  if isStopping s then s
  else
    let '(s, continue) := learnFbi d s in
    if negb continue then s
    else match kget seg (a_segs s) with
         | None => s
         | Some i =>
             let rtt := a_now s - si_timeSent i in
             let s := set_highData (N.max (a_highData s) seg) s in
             let s := if state_eqb (si_state i) InRetxQueue then s
                      else set_nInFlight (a_nInFlight s - 1) s in
             let s := adaptWindow seg d s in
             let s := onData seg d s in
             if a_crashed s then s
             else
               let s := sampleRtt seg i rtt s in
               let s := set_segs (kdel seg (a_segs s)) s in
               if b_allReceived (a_b s) then emit ODone (cancel s)
               else schedulePackets s
         end.

(** pipeline-interests-adaptive.cpp L293-320 *)
Definition handleNack (seg : N) (r : nack_reason) (s : astate) : astate :=
  if isStopping s then s
  else match r with
       | NrDuplicate => s
       | NrCongestion =>
           let s := enqueueForRetransmission seg s in
           if a_crashed s then s else schedulePackets (recordTimeout seg s)
       | _ => handleFail seg (RNack seg r) s
       end.

(** pipeline-interests-adaptive.cpp L322-334 *)
Definition handleLifetimeExpiration (seg : N) (s : astate) : astate :=
  if isStopping s then s
  else
    let s := set_nTimeouts (a_nTimeouts s + 1) s in
    let s := enqueueForRetransmission seg s in
    if a_crashed s then s else schedulePackets (recordTimeout seg s).

(** External events. *)
Inductive aevent :=
| AeData (seg : N) (d : data)
| AeNack (seg : N) (r : nack_reason)
| AeExpire (seg : N)
| AeRto (order : list N)          (* m_checkRtoEvent fires *)
| AeTick (dt : N)                 (* time passes *)
| AeCancel.                       (* cancel() is called, or the pipeline is destroyed *)

(** The Face looks up the pending Interest, forgets it, and calls the handler. *)
Definition fromFace (seg : N) (k : astate -> astate) (s : astate) : astate :=
  match kget seg (a_segs s) with
  | Some i =>
      if si_live i
      then k (set_segs (kset seg (SegInfo false (si_timeSent i) (si_rto i) (si_state i)) (a_segs s)) s)
      else s
  | None => s
  end.

Definition a_step (s : astate) (e : aevent) : astate :=
  if a_crashed s then s
  else match e with
       | AeData seg d => fromFace seg (fun s => handleData seg d (emit (OGotData seg d) s)) s
       | AeNack seg r => fromFace seg (fun s => handleNack seg r (emit (OGotNack seg r) s)) s
       | AeExpire seg => fromFace seg (fun s => handleLifetimeExpiration seg (emit (OGotExpiry seg) s)) s
       | AeRto order => if a_timer s then checkRto order (set_timer false s) else s
       | AeTick dt => set_now (a_now s + Z.of_N dt) s
       | AeCancel => cancel (emit OGotCancel s)
       end.

(** A run of the pipeline: doRun, then any sequence of events. *)
Definition a_run (es : list aevent) : astate := fold_left a_step es (doRun a_init).
End Adaptive.

(** The trace in chronological order. *)
Definition a_history {W R} (s : @astate W R) : list pobs := rev (a_tr s).
