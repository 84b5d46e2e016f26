(** Properties of the fixed pipeline: C03, C04, C05-C08, C10, C14, C15.  Everywhere: [C] any
    option values with a pipeline size of at least one, [es] any sequence of network, timer
    and user events. *)
From Verif Require Import Base PipelineBase PipelineSpec FixedModel FixedSpec CatchunksModel CatchunksSpec.
From Verif Require Import CatchunksProofs AdaptiveWitness FixedTheorems.

(** a pipeline of three, 15 retries *)
Definition xcfg : xconfig := XConfig 3 15 d_appnack.
(** segment 1 times out once, segments arrive out of order, segment 3 is requested in vain *)
Definition xrun3 : list xevent :=
  [XeData 0 (dat [1; 2]%N FbiAbsent); XeTimeout 1; XeData 2 (dat [5]%N (FbiSegment 2));
   XeData 1 (dat [3; 4]%N (FbiSegment 2))].

(** C03: at every moment of a run against a genuine producer, standard output is a prefix
    of the content. *)
Theorem C03_fixed_output_prefix :
  forall (C : xconfig) (es : list xevent) (Hsize : (0 < xc_size C)%nat) h1 h2 chunks,
    x_history (x_run C es) = h1 ++ h2 ->
    genuine_history chunks h1 ->
    is_prefix (catchunks_stdout h1) (concat chunks).
Proof. exact fixed_stdout_prefix. Qed.
Print Assumptions C03_fixed_output_prefix.

Example C03_case :
  let h := x_history (x_run xcfg xrun3) in
  genuine_history chunks3 h /\ catchunks_stdout (firstn 11 h) = [1; 2]%N /\ catchunks_stdout h = [1; 2; 3; 4; 5]%N.
Proof.
  split; [apply genuine_forall; vm_compute; repeat (constructor; [vm_compute; tauto|]); constructor | vm_compute; auto].
Qed.

(** C04: once the pipeline has reported completion, standard output is the content. *)
Theorem C04_fixed_complete_output :
  forall (C : xconfig) (es : list xevent) (Hsize : (0 < xc_size C)%nat) chunks,
    let h := x_history (x_run C es) in
    In ODone h -> genuine_history chunks h -> catchunks_stdout h = concat chunks.
Proof. exact fixed_stdout_done. Qed.
Print Assumptions C04_fixed_complete_output.

Example C04_case : existsb is_done (x_history (x_run xcfg xrun3)) = true.
Proof. vm_compute. reflexivity. Qed.

(** C05: no segment is delivered twice, and only Data that arrived for a requested segment
    is delivered -- against any producer. *)
Theorem C05_fixed_delivery_once :
  forall (C : xconfig) (es : list xevent) (Hsize : (0 < xc_size C)%nat),
    NoDup (map fst (deliveries (x_history (x_run C es)))).
Proof. exact fixed_once. Qed.
Print Assumptions C05_fixed_delivery_once.

Theorem C05_fixed_delivery_requested :
  forall (C : xconfig) (es : list xevent) (Hsize : (0 < xc_size C)%nat) h1 seg d h2,
    x_history (x_run C es) = h1 ++ ODeliver seg d :: h2 ->
    In (OGotData seg d) h1 /\ In (OInterest seg false) h1.
Proof. exact fixed_delivery_genuine. Qed.
Print Assumptions C05_fixed_delivery_requested.

Example C05_fixed_case :
  map fst (deliveries (x_history (x_run xcfg xrun3))) = [0; 2; 1]%N.
Proof. vm_compute. reflexivity. Qed.

(** C06: no Interest beyond the announced final segment. *)
Theorem C06_fixed_final_respected :
  forall (C : xconfig) (es : list xevent) (Hsize : (0 < xc_size C)%nat) h1 seg retx h2 n,
    x_history (x_run C es) = h1 ++ OInterest seg retx :: h2 ->
    known_last h1 = Some n -> (seg <= n)%N.
Proof. exact fixed_final. Qed.
Print Assumptions C06_fixed_final_respected.

(** Interests are still sent after the final segment became known *)
Example C06_fixed_case :
  exists h1 h2, x_history (x_run (XConfig 1 15 d_appnack) [XeData 0 (dat [] (FbiSegment 1))]) =
                h1 ++ OInterest 1 false :: h2 /\ known_last h1 = Some 1%N.
Proof. eexists [_; _; _]. exists []. vm_compute. split; reflexivity. Qed.

(** C07: first-time Interests are for 0, 1, 2, ... in this order, each once; a
    retransmission is for a segment already requested and not yet delivered. *)
Theorem C07_fixed_requests_in_order :
  forall (C : xconfig) (es : list xevent) (Hsize : (0 < xc_size C)%nat),
    let h := x_history (x_run C es) in
    first_sends h = upto (length (first_sends h)).
Proof. exact fixed_in_order. Qed.
Print Assumptions C07_fixed_requests_in_order.

Theorem C07_fixed_resend_needed :
  forall (C : xconfig) (es : list xevent) (Hsize : (0 < xc_size C)%nat) h1 seg h2,
    x_history (x_run C es) = h1 ++ OInterest seg true :: h2 ->
    In (OInterest seg false) h1 /\ ~ In seg (map fst (deliveries h1)).
Proof. exact fixed_resend. Qed.
Print Assumptions C07_fixed_resend_needed.

Example C07_fixed_case :
  let h := x_history (x_run xcfg xrun3) in
  first_sends h = [0; 1; 2; 3]%N /\ count (is_resend 1) h = 1.
Proof. vm_compute. auto. Qed.

(** C08: at every moment at most pipeline-size Interests are in flight. *)
Theorem C08_fixed_window :
  forall (C : xconfig) (es : list xevent) (Hsize : (0 < xc_size C)%nat) h1 h2,
    x_history (x_run C es) = h1 ++ h2 ->
    (length (in_flight h1) <= xc_size C)%nat.
Proof. exact fixed_window. Qed.
Print Assumptions C08_fixed_window.

(** the bound is reached *)
Example C08_case :
  let h := x_history (x_run xcfg xrun3) in
  map (fun k => length (in_flight (firstn k h))) (seq 0 (S (length h))) =
  [0; 1; 2; 3; 2; 2; 3; 2; 3; 2; 2; 1; 0; 0; 0]%nat.
Proof. vm_compute. reflexivity. Qed.

(** C10: after a failure or a cancel, no Interest, no delivery and no further report -- with
    any producer.  After a completion the same holds with a genuine producer.  Missing (and
    false, see below): no failure after a completion whatever the producer does. *)
Theorem C10_fixed_nothing_after_stop :
  forall (C : xconfig) (es : list xevent) (Hsize : (0 < xc_size C)%nat) h1 o h2,
    x_history (x_run C es) = h1 ++ o :: h2 -> is_stop o = true ->
    forall x, In x h2 -> is_action x = false.
Proof. exact fixed_stop. Qed.
Print Assumptions C10_fixed_nothing_after_stop.

Theorem C10_fixed_nothing_after_done_partial :
  forall (C : xconfig) (es : list xevent) (Hsize : (0 < xc_size C)%nat) h1 h2 chunks,
    x_history (x_run C es) = h1 ++ ODone :: h2 ->
    genuine_history chunks (x_history (x_run C es)) ->
    forall x, In x h2 -> is_action x = false.
Proof. exact fixed_after_done. Qed.
Print Assumptions C10_fixed_nothing_after_done_partial.

Example C10_fixed_case :
  exists h1, x_history (x_run xcfg [XeData 0 (dat [] (FbiSegment 5)); XeNack 1 NrNoRoute; XeData 2 (dat [] FbiAbsent); XeCancel]) =
    h1 ++ OFail (RFetch 1) :: [OGotCancel].
Proof. eexists [_; _; _; _; _; _; _; _; _]. vm_compute. reflexivity. Qed.
Example C10_fixed_case_done :
  exists h1, x_history (x_run xcfg (xrun3 ++ [XeData 0 (dat [7]%N FbiAbsent); XeTimeout 1])) = h1 ++ ODone :: [].
Proof. eexists [_; _; _; _; _; _; _; _; _; _; _; _; _]. vm_compute. reflexivity. Qed.

(** A producer that answers segment 2 and then announces segment 1 as the final one makes the
    pipeline report completion although segment 1 is missing, and then failure. *)
Theorem C10_fixed_nothing_after_done_refuted :
  exists (C : xconfig) (es : list xevent) h1 h2 rs,
    (0 < xc_size C)%nat /\
    x_history (x_run C es) = h1 ++ ODone :: h2 /\
    In (OFail rs) h2 /\ ~ In 1%N (map fst (deliveries h1)) /\ known_last h1 = Some 1%N.
Proof.
  exists xcfg, [XeData 2 (dat [] FbiAbsent); XeData 0 (dat [] (FbiSegment 1)); XeNack 1 NrNoRoute].
  eexists [_; _; _; _; _; _; _; _; _]. eexists [_; _]. exists (RFetch 1).
  split; [vm_compute; lia|]. split; [vm_compute; reflexivity|]. vm_compute. intuition discriminate.
Qed.
Print Assumptions C10_fixed_nothing_after_done_refuted.

(** C14, as far as it holds: every failure report goes back to a segment that could not be
    retrieved; where the report names a segment, it belongs to the content.  Missing: the
    report "no FinalBlockId" may be made although a FinalBlockId was received (next theorem). *)
Theorem C14_fixed_failure_justified_partial :
  forall (C : xconfig) (es : list xevent) (Hsize : (0 < xc_size C)%nat) h1 rs h2,
    x_history (x_run C es) = h1 ++ OFail rs :: h2 ->
    failure_caused_fixed (xc_maxRetries C) h1 rs.
Proof. exact fixed_failure. Qed.
Print Assumptions C14_fixed_failure_justified_partial.

Example C14_fixed_case_retries :
  exists h1, x_history (x_run (XConfig 1 1 d_appnack) [XeTimeout 0; XeTimeout 0]) = h1 ++ [OFail RNoFinal].
Proof. eexists [_; _; _; _]. vm_compute. reflexivity. Qed.
Example C14_fixed_case_error :
  exists h1, x_history (x_run xcfg [XeNack 1 NrNoRoute; XeData 0 (dat [] (FbiSegment 1))]) = h1 ++ [OFail (RSegment 1)].
Proof. eexists [_; _; _; _; _; _; _]. vm_compute. reflexivity. Qed.

(** With a genuine producer of two segments: a Nack for segment 2, which is beyond the
    content, makes the pipeline fail although the FinalBlockId arrives and nothing is
    known to be missing. *)
Theorem C14_fixed_failure_justified_refuted :
  exists (C : xconfig) (es : list xevent) chunks h1 rs h2,
    (0 < xc_size C)%nat /\
    x_history (x_run C es) = h1 ++ OFail rs :: h2 /\
    genuine_history chunks (x_history (x_run C es)) /\
    ~ failure_justified_fixed (xc_maxRetries C) h1 rs.
Proof.
  exists xcfg, [XeNack 2 NrNoRoute; XeData 0 (dat [1]%N (FbiSegment 1))], [[1]; [2]]%N.
  eexists [_; _; _; _; _; _; _]. exists RNoFinal, [].
  split; [vm_compute; lia|]. split; [vm_compute; reflexivity|]. split.
  - apply genuine_forall; vm_compute; repeat (constructor; [vm_compute; tauto|]); constructor.
  - vm_compute. intros [H _]. discriminate.
Qed.
Print Assumptions C14_fixed_failure_justified_refuted.

(** C15: as long as nothing was reported, the run was not cancelled and the program was not
    ended by an exception, an Interest is in flight or a retry timer is running -- with any
    producer. *)
Theorem C15_fixed_never_hangs :
  forall (C : xconfig) (es : list xevent), (0 < xc_size C)%nat ->
    let h := x_history (x_run C es) in
    existsb is_over h = false -> ~ In OThrow h -> awaited h <> [].
Proof. exact fixed_progress. Qed.
Print Assumptions C15_fixed_never_hangs.

(** two fatal Nacks and one congestion Nack: only the retry timer of segment 0 is left *)
Example C15_case :
  let h := x_history (x_run xcfg [XeNack 2 NrNoRoute; XeNack 1 NrNoRoute; XeNack 0 NrCongestion]) in
  existsb is_over h = false /\ in_flight h = [] /\ awaited h = [0]%N.
Proof. vm_compute. auto. Qed.

(** The assertion that a slot is free when it is filled never fails. *)
Theorem C08_fixed_no_assertion_failure :
  forall (C : xconfig) (es : list xevent) (Hsize : (0 < xc_size C)%nat),
    ~ In OAssert (x_history (x_run C es)).
Proof. exact fixed_no_assert. Qed.
Print Assumptions C08_fixed_no_assertion_failure.
