(** What ndncatchunks reports with --verbose about a transfer: C75.  Any option values and any
    sequence of network and timer events; the summary is any text. *)
From Verif Require Import Base TlvModel PipelineBase PipelineSpec FetcherModel FixedModel AdaptiveModel AdaptiveWitness PutchunksModel DiscoverModel
  Double DumpModel CatMsgModel CatLinesSpec CatLines CatLinesFixed CatFailDisc ChunksTextModel ChunksTextSpec CatSummary.
Local Open Scope Z_scope.

(** The fixed pipeline: a "Requesting" line for the first Interest for each segment, in order; a
    "Received" line for each segment handed to the application; a line for each Nack and each
    expired Interest, with the Interest concerned; the summary when all has been received; nothing
    else. *)
Theorem C75_fixed_report :
  forall (C : xconfig) (summary : xstate -> text) (es : list xevent),
    tells (xc_maxRetries C) true [] (mx_run C summary es) (x_history (x_run C es)).
Proof. exact fixed_lines. Qed.
Print Assumptions C75_fixed_report.

(** The adaptive pipelines, for every window and every estimator: the same, with a "# of retries"
    line for each retransmission but the first of its segment, and with a line for each decrease
    of the window.  Every retransmission is reported, in order; a line may report one more
    retransmission of a segment whose permitted retransmissions have all been made. *)
Theorem C75_adaptive_report_partial :
  forall W R (P : policy W R) (C : aconfig) (cwnd ssthresh : W -> f64) (summary : @astate W R -> text) (es : list aevent),
    tells (c_maxRetries C) false [] (ma_run P C cwnd ssthresh summary es) (a_history (a_run P C es)).
Proof. exact @adaptive_lines. Qed.
Print Assumptions C75_adaptive_report_partial.

(** So a reported retransmission need not take place. *)
Theorem C75_retransmission_refuted :
  exists W R (P : policy W R) (C : aconfig) (cwnd ssthresh : W -> f64) (summary : @astate W R -> text) (es : list aevent),
    retransmitted (ma_run P C cwnd ssthresh summary es) <> resends (a_history (a_run P C es)).
Proof.
  exists Z, unit, (halving 3), (AConfig 1 false false d_appnack), (fun _ => f0), (fun _ => f0), (fun _ => []),
    [AeData 1 (dat [] (FbiSegment 2)); AeTick 100; AeNack 0 NrCongestion; AeNack 0 NrDuplicate; AeTick 100; AeRto [0]%N].
  vm_compute. discriminate.
Qed.
Print Assumptions C75_retransmission_refuted.

(** The version discovery: what it reports is exactly what happened. *)
Theorem C75_discovery_report :
  forall (c : dconfig) (es : list devent),
    d_skip c = false -> md_run c es = discovery_messages 0 (d_run c es).
Proof. exact discovery_lines. Qed.
Print Assumptions C75_discovery_report.

(** The summary is that of the transfer at its completion, with the numbers of C64.  Adaptive
    pipelines: *)
Theorem C75_summary :
  forall W E (P : policy W E) (C : aconfig) (cwnd ssthresh : W -> f64) (rtts : E -> option (Z * Z * Z)) (el : Z -> text)
    (es : list aevent) (t : text),
    passed es < ns_max -> countable (a_history (a_run P C es)) ->
    In (MSummary t) (ma_run P C cwnd ssthresh (adaptive_text el rtts) es) ->
    exists es1 es2, es = es1 ++ es2 /\ ChunksTextSpec.completions (a_history (a_run P C es1)) = [ODone] /\
      (forall a b, es1 = a ++ b -> b <> [] -> ChunksTextSpec.completions (a_history (a_run P C a)) = []) /\
      full_report el (passed es1) (rtts (a_rtt (a_run P C es1))) (a_history (a_run P C es1)) t.
Proof. exact @adaptive_summary_right. Qed.
Print Assumptions C75_summary.

(** The fixed pipeline, for a summary printed after [ns] nanoseconds: *)
Theorem C75_fixed_summary :
  forall (C : xconfig) (es : list xevent) (el : Z -> text) (ns : Z) (t : text),
    0 <= ns < ns_max -> (forall es1 es2, es = es1 ++ es2 -> countable (x_history (x_run C es1))) ->
    In (MSummary t) (mx_run C (fun s => base_summary el ns (x_b s)) es) ->
    exists es1 e es2, es = es1 ++ e :: es2 /\
      CatLinesSpec.completions (x_history (x_run C es1)) < CatLinesSpec.completions (x_history (x_run C (es1 ++ [e]))) /\
      transfer_report el ns (x_history (x_run C (es1 ++ [e]))) t.
Proof. exact fixed_summary_right. Qed.
Print Assumptions C75_fixed_summary.

(** Both have a summary to talk about: *)
Example C75_summary_ex :
  (exists t, In (MSummary t) (ma_run (halving 3) cfg f_of_Z f_of_Z (adaptive_text (fun _ => []) (fun _ => None)) run3)) /\
  passed run3 < ns_max /\ countable (a_history (a_run (halving 3) cfg run3)) /\
  exists t, In (MSummary t) (mx_run (XConfig 2 1 d_appnack) (fun s => base_summary (fun _ => []) 5 (x_b s))
    [XeData 1 (dat [7]%N (FbiSegment 1)); XeData 0 (dat [5; 6]%N FbiAbsent)]).
Proof.
  split; [eexists; apply summaries_in; vm_compute; left; reflexivity|]. split; [reflexivity|]. split; [split; vm_compute; reflexivity|].
  eexists; apply summaries_in; vm_compute; left; reflexivity.
Qed.

Example C75_report_ex :
  let es := [XeTimeout 0; XeNack 0 NrDuplicate; XeData 1 (dat [7]%N (FbiSegment 1)); XeData 0 (dat [5; 6]%N FbiAbsent)] in
  mx_run (XConfig 2 1 d_appnack) (fun _ => [1]%N) es =
    [MRequest 0; MRequest 1; MTimeout 0 1; MNack 0 2 NrDuplicate; MReceived 1; MReceived 0; MSummary [1]%N] /\
  expiries [] (x_history (x_run (XConfig 2 1 d_appnack) es)) = [(0%N, 1)] /\
  nacks [] (x_history (x_run (XConfig 2 1 d_appnack) es)) = [(0%N, 2, NrDuplicate)] /\
  let m := ma_run (halving 3) cfg f_of_Z f_of_Z (fun _ => [1]%N) run3 in
  let h := a_history (a_run (halving 3) cfg run3) in
  requested m = [0; 1; 2; 3]%N /\ first_sends h = [0; 1; 2; 3]%N /\ retransmitted m = [1]%N /\ resends h = [1]%N /\
  received m = [0; 2; 1]%N /\ losses_told m = 1 /\ summaries m = [[1]]%N /\
  md_run (DConfig false 1 []) [DeNack NrDuplicate; DeTimeout] = [MDiscNack 1 NrDuplicate; MDiscTimeout 2].
Proof. vm_compute. repeat split. Qed.
