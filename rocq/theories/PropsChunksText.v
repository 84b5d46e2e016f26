(** Properties of what ndncatchunks writes about a transfer: the log files (C63) and the
    summary (C64). *)
From Verif Require Import Base PipelineBase PipelineSpec FetcherModel FixedModel AdaptiveModel TlvModel Double WindowModel DumpModel DumpSpec
  DecimalSpec PingTextSpec ChunksTextModel ChunksTextSpec ChunksTextProofs2 ChunksTextProofs3 ChunksTextFixed ChunksTextCase.
From Coq Require Import String Reals Sorted.
From Coq Require Import List.
From Flocq Require Import BinarySingleNaN.
Import ListNotations.
Local Open Scope Z_scope.
Local Open Scope list_scope.

(** * C63 The log files *)

(** --log-cwnd, for every window policy and estimator: one line per change of the window, in
    order, with its time and the new window; the times do not decrease, neither the real ones
    nor the printed ones; the last window is the current one. *)
Theorem C63_cwnd_file :
  forall (W E : Type) (P : policy W E) (C : aconfig) (cwnd : W -> f64) rttVar sRtt rtts el (es : list aevent),
    passed es < ns_max ->
    exists (changes : list (Z * W * R)) lines,
      k_cwnd (k_run P C cwnd rttVar sRtt rtts el es) = str "time" ++ TAB ++ str "cwndsize" ++ LF ++ concat lines /\
      Forall2 (fun '(ns, w, r) l => cwnd_line ns (cwnd w) r l) changes lines /\
      windows (a_history (a_run P C es)) = map (fun '(_, w, _) => OWindow (p_floor P w)) changes /\
      StronglySorted Z.le (map (fun '(ns, _, _) => ns) changes) /\ StronglySorted Rle (map (fun '(_, _, r) => r) changes) /\
      Forall (fun '(ns, _, _) => 0 <= ns <= passed es) changes /\
      a_cwnd (a_run P C es) = last (map (fun '(_, w, _) => w) changes) (p_initW P).
Proof. exact (@cwnd_file'). Qed.
Print Assumptions C63_cwnd_file.

(** A line is added exactly by the events that change the window; it has the time of the event
    and the window after it. *)
Theorem C63_cwnd_step :
  forall (W E : Type) (P : policy W E) (C : aconfig) (cwnd : W -> f64) rttVar sRtt rtts el (es : list aevent) (e : aevent),
    passed es < ns_max ->
    let s := a_run P C es in let s' := a_run P C (es ++ [e]) in
    let file es := k_cwnd (k_run P C cwnd rttVar sRtt rtts el es) in
    exists new, a_history s' = a_history s ++ new /\
      (windows new = [] /\ a_cwnd s' = a_cwnd s /\ file (es ++ [e]) = file es \/
       exists l r, windows new = [OWindow (p_floor P (a_cwnd s'))] /\ file (es ++ [e]) = file es ++ l /\
         cwnd_line (passed es) (cwnd (a_cwnd s')) r l).
Proof. exact (@cwnd_step'). Qed.
Print Assumptions C63_cwnd_step.

(** --log-rtt: one line per measurement, in order, with its segment number, round-trip time and
    the variation, smoothed value and timeout of some state of the estimator; *)
Theorem C63_rtt_file :
  forall (W E : Type) (P : policy W E) (C : aconfig) (cwnd : W -> f64) rttVar sRtt rtts el (es : list aevent),
    exists lines,
      k_rtt (k_run P C cwnd rttVar sRtt rtts el es) =
        str "segment" ++ TAB ++ str "rtt" ++ TAB ++ str "rttvar" ++ TAB ++ str "srtt" ++ TAB ++ str "rto" ++ LF ++ concat lines /\
      Forall2 (fun o l => exists seg rtt n r, o = ORttSample seg rtt n /\ rtt_line seg rtt (rttVar r) (sRtt r) (p_rto P r) l)
        (samples (a_history (a_run P C es))) lines.
Proof. exact (@rtt_file). Qed.
Print Assumptions C63_rtt_file.

(** ... namely the state right after that measurement. *)
Theorem C63_rtt_step :
  forall (W E : Type) (P : policy W E) (C : aconfig) (cwnd : W -> f64) rttVar sRtt rtts el (es : list aevent) (e : aevent),
    let s := a_run P C es in let s' := a_run P C (es ++ [e]) in
    let file es := k_rtt (k_run P C cwnd rttVar sRtt rtts el es) in
    exists new, a_history s' = a_history s ++ new /\
      (samples new = [] /\ file (es ++ [e]) = file es \/
       exists seg rtt n l, samples new = [ORttSample seg rtt n] /\ file (es ++ [e]) = file es ++ l /\
         let r := p_sample P rtt n (a_rtt s) in rtt_line seg rtt (rttVar r) (sRtt r) (p_rto P r) l).
Proof. exact (@rtt_step'). Qed.
Print Assumptions C63_rtt_step.

(** AIMD with the default options and an estimator that doubles the last round-trip time: three
    packets, the second one with a congestion mark, and an expired Interest. *)
Example C63_case :
  passed case_events < ns_max /\
  k_cwnd case_run = str "time" ++ TAB ++ str "cwndsize" ++ LF ++
    str "0.25" ++ TAB ++ str "3" ++ LF ++ str "0.250012" ++ TAB ++ str "2" ++ LF ++
    str "1234.57" ++ TAB ++ str "2.5" ++ LF ++ str "1234.57" ++ TAB ++ str "2" ++ LF /\
  k_rtt case_run = str "segment" ++ TAB ++ str "rtt" ++ TAB ++ str "rttvar" ++ TAB ++ str "srtt" ++ TAB ++ str "rto" ++ LF ++
    str "0" ++ TAB ++ str "250" ++ TAB ++ str "125" ++ TAB ++ str "250" ++ TAB ++ str "500" ++ LF ++
    str "1" ++ TAB ++ str "250.012" ++ TAB ++ str "125.006" ++ TAB ++ str "250.012" ++ TAB ++ str "500.025" ++ LF ++
    str "2" ++ TAB ++ str "1.23432e+06" ++ TAB ++ str "617159" ++ TAB ++ str "1.23432e+06" ++ TAB ++ str "2.46864e+06" ++ LF.
Proof. vm_compute. auto. Qed.

(** The time has six digits, so the log cannot tell apart what happens within some
    milliseconds in a transfer of 20 minutes. *)
Theorem C63_resolution_refuted :
  exists (pre : list aevent) e e' t w w',
    let file es := k_cwnd (k_run case_policy case_cfg w_cwnd (fun r => fst r / 2) fst case_rtts case_elapsed es) in
    passed pre < 1300000000000 /\
    file (pre ++ [e; AeTick 4000000; e']) = file pre ++ t ++ TAB ++ w ++ LF ++ t ++ TAB ++ w' ++ LF.
Proof.
  exists (firstn 5 case_events), (AeData 2 (case_packet false FbiAbsent 4000)), (AeExpire 4), (str "1234.57"), (str "2.5"), (str "2").
  vm_compute. auto.
Qed.
Print Assumptions C63_resolution_refuted.

(** * C64 The summary *)

(** The adaptive pipelines print nothing before the transfer is complete.  The event that
    completes it prints one summary, and nothing follows: the number of segments, of
    congestion marks, timeouts, window decreases and retransmissions of this transfer,
    exactly; the number of bytes, the goodput, the percentage of retransmissions and the
    round-trip times as decimal numbers of stated precision. *)
Theorem C64_summary :
  forall (W E : Type) (P : policy W E) (C : aconfig) (cwnd : W -> f64) rttVar sRtt rtts el (es : list aevent),
    passed es < ns_max -> countable (a_history (a_run P C es)) ->
    let err := k_err (k_run P C cwnd rttVar sRtt rtts el es) in
    completions (a_history (a_run P C es)) = [] /\ err = [] \/
    completions (a_history (a_run P C es)) = [ODone] /\
    exists es1 es2, es = es1 ++ es2 /\ completions (a_history (a_run P C es1)) = [ODone] /\
      (forall a b, es1 = a ++ b -> b <> [] -> completions (a_history (a_run P C a)) = []) /\
      full_report el (passed es1) (rtts (a_rtt (a_run P C es1))) (a_history (a_run P C es1)) err.
Proof. exact (@err_ok'). Qed.
Print Assumptions C64_summary.

(** The first part for the fixed-size pipeline, whatever time has passed. *)
Theorem C64_fixed :
  forall (C : xconfig) (es : list xevent) el ns, 0 <= ns < ns_max ->
    let h := x_history (x_run C es) in countable h ->
    transfer_report el ns h (base_summary el ns (x_b (x_run C es))).
Proof. exact fixed_text_ok. Qed.
Print Assumptions C64_fixed.

(** Three segments, the second one with a mark, the third one after a timeout. *)
Example C64_case :
  passed done_events < ns_max /\ countable (a_history (a_run case_policy case_cfg done_events)) /\
  completions (a_history (a_run case_policy case_cfg done_events)) = [ODone] /\
  k_err done_run = LF ++ LF ++ str "All segments have been received." ++ LF ++ str "Time elapsed: 1234.57 seconds" ++ LF ++
    str "Segments received: 3" ++ LF ++ str "Transferred size: 11.456 kB" ++ LF ++ str "Goodput: 229.112929 kbit/s" ++ LF ++
    str "Congestion marks: 1 (caused 1 window decreases)" ++ LF ++ str "Timeouts: 1 (caused 0 window decreases)" ++ LF ++
    str "Retransmitted segments: 1 (20%), skipped: 0" ++ LF ++ str "RTT min/avg/max = 250.000/250.006/250.012 ms" ++ LF.
Proof. split; [reflexivity|]. split; [split; vm_compute; reflexivity|]. split; vm_compute; reflexivity. Qed.
