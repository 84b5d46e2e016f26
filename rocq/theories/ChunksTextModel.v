(** Model of the texts that ndncatchunks writes about a transfer: the log files of
    --log-cwnd and --log-rtt (tools/chunks/catchunks/statistics-collector.cpp), and the
    summary on the standard error (printSummary in pipeline-interests.cpp and
    pipeline-interests-adaptive.cpp).

    Not modelled: the text of the elapsed time (operator<< of boost::chrono), the option
    report of --verbose, opening and flushing of the files. *)
From Verif Require Import Base PipelineBase AdaptiveModel TlvModel PingModel Double DumpModel ThroughputModel DecimalModel.
From Coq Require Import String.
From Coq Require Import List.
From Flocq Require Import BinarySingleNaN.
Import ListNotations.
Local Open Scope Z_scope.
Local Open Scope list_scope.

(** '\t' and '\n' *)
Definition tab : text := [9%N].
Definition newline : text := [10%N].
(** a / b for integers that are converted to double, as in "count() / 1e9" *)
Definition quotient (a b : Z) : f64 := fdiv (f_of_Z a) (f_of_Z b).

(** * The summary *)

(** operator<< of a double with std::fixed and std::setprecision(3), as printf format
    "%.3f"; the sign of NaN is not modelled *)
Definition thousandths (m : positive) (e : Z) : Z :=
  if 0 <=? e then Zpos m * 2 ^ e * 1000 else div_half_even (Zpos m * 1000) (2 ^ (- e)).
Definition fixed3 (n : Z) : text := digits (Z.to_N (n / 1000)) ++ str "." ++ padded 3 (Z.to_N (n mod 1000)).
Definition fixed3_text (x : f64) : text :=
  match x with
  | B754_zero s => (if s then str "-" else []) ++ fixed3 0
  | B754_infinity s => (if s then str "-" else []) ++ str "inf"
  | B754_nan => str "nan"
  | B754_finite s m e _ => (if s then str "-" else []) ++ fixed3 (thousandths m e)
  end.

(** operator<< of an int64_t that is not negative *)
Definition count_text (n : Z) : text := to_string (Z.to_N n).

(** pipeline-interests.cpp L124-135; [ns]: steady_clock::now() - getStartTime(),
    [elapsed]: the text of the elapsed time.  8 * m_receivedSize is computed modulo 2^64. *)
Definition base_summary (elapsed : Z -> text) (ns : Z) (b : pbase) : text :=
  let throughput := fdiv (f_of_Z ((8 * b_recvSize b) mod 18446744073709551616)) (quotient ns 1000000000) in
  newline ++ newline ++ str "All segments have been received." ++ newline ++
  str "Time elapsed: " ++ elapsed ns ++ newline ++
  str "Segments received: " ++ count_text (b_nReceived b) ++ newline ++
  str "Transferred size: " ++ double_text (quotient (b_recvSize b) 1000) ++ str " kB" ++ newline ++
  str "Goodput: " ++ formatThroughput throughput ++ newline.

(** pipeline-interests-adaptive.cpp L421-442; [rtts]: what the estimator reports as the
    smallest, average and largest round-trip time in nanoseconds, [None] if there is no
    sample (the extreme values in L432-433) *)
Definition adaptive_text {W R} (elapsed : Z -> text) (rtts : R -> option (Z * Z * Z)) (s : @astate W R) : text :=
  base_summary elapsed (a_now s) (a_b s) ++
  str "Congestion marks: " ++ count_text (a_nCongMarks s) ++ str " (caused " ++ count_text (a_nMarkDecr s) ++
    str " window decreases)" ++ newline ++
  str "Timeouts: " ++ count_text (a_nTimeouts s) ++ str " (caused " ++ count_text (a_nLossDecr s) ++
    str " window decreases)" ++ newline ++
  str "Retransmitted segments: " ++ count_text (a_nRetx s) ++
  str " (" ++ double_text (if a_nSent s =? 0 then f_of_Z 0
                           else fdiv (fmul (f_of_Z (a_nRetx s)) (f_of_Z 100)) (f_of_Z (a_nSent s))) ++ str "%)" ++
  str ", skipped: " ++ count_text (a_nSkipped s) ++ newline ++
  str "RTT " ++
  match rtts (a_rtt s) with
  | None => str "stats unavailable" ++ newline
  | Some (mn, av, mx) =>
      str "min/avg/max = " ++ fixed3_text (quotient mn 1000000) ++ str "/" ++
      fixed3_text (quotient av 1000000) ++ str "/" ++ fixed3_text (quotient mx 1000000) ++ str " ms" ++ newline
  end.

(** * The log files *)

(** statistics-collector.cpp L34-35 *)
Definition cwnd_header : text := str "time" ++ tab ++ str "cwndsize" ++ newline.
Definition rtt_header : text :=
  str "segment" ++ tab ++ str "rtt" ++ tab ++ str "rttvar" ++ tab ++ str "srtt" ++ tab ++ str "rto" ++ newline.
(** statistics-collector.cpp L37-39; [ns]: timeElapsed *)
Definition cwnd_entry (ns : Z) (w : f64) : text :=
  double_text (quotient ns 1000000000) ++ tab ++ double_text w ++ newline.
(** statistics-collector.cpp L41-47 *)
Definition rtt_entry (seg : N) (rtt rttVar sRtt rto : Z) : text :=
  to_string seg ++ tab ++
  double_text (quotient rtt 1000000) ++ tab ++
  double_text (quotient rttVar 1000000) ++ tab ++
  double_text (quotient sRtt 1000000) ++ tab ++
  double_text (quotient rto 1000000) ++ newline.

Section Collector.
Context {W R : Type}.
Variable P : policy W R.
Variable C : aconfig.
Variable cwnd : W -> f64.            (* m_cwnd *)
Variables rttVar sRtt : R -> Z.      (* getRttVariation(), getSmoothedRtt() of ndn-cxx *)
Variable rtts : R -> option (Z * Z * Z).
Variable elapsed : Z -> text.

(** the pipeline, the contents of the two files, and the summary on the standard error *)
Record collector := Collector { k_pipe : @astate W R; k_cwnd : text; k_rtt : text; k_err : text }.

(** what the pipeline emitted during a step, in order *)
Definition new_signals (s s' : @astate W R) : list pobs :=
  rev (firstn (length (a_tr s') - length (a_tr s)) (a_tr s')).
(** afterCwndChange, emitted in pipeline-interests-aimd.cpp L54 and L64, and in
    pipeline-interests-cubic.cpp L87 and L111, with the time since the start and the new
    window.  The model takes both from the state at the end of the event: time does not
    pass during an event, and no event changes the window twice (see ChunksTextProofs). *)
Definition on_cwnd (s : @astate W R) (o : pobs) : text :=
  match o with OWindow _ => cwnd_entry (a_now s) (cwnd (a_cwnd s)) | _ => [] end.
(** afterRttMeasurement, emitted in pipeline-interests-adaptive.cpp L273-276 right after the
    sample was added to the estimator, which no event does twice *)
Definition on_rtt (s : @astate W R) (o : pobs) : text :=
  match o with
  | ORttSample seg rtt _ => rtt_entry seg rtt (rttVar (a_rtt s)) (sRtt (a_rtt s)) (p_rto P (a_rtt s))
  | _ => []
  end.
(** pipeline-interests-adaptive.cpp L58-61 and L283-286, without --quiet; nothing follows it
    in the event *)
Definition on_done (s : @astate W R) (o : pobs) : text :=
  match o with ODone => adaptive_text elapsed rtts s | _ => [] end.
Definition k_update (k : collector) (s' : @astate W R) : collector :=
  let new := new_signals (k_pipe k) s' in
  Collector s' (k_cwnd k ++ flat_map (on_cwnd s') new) (k_rtt k ++ flat_map (on_rtt s') new)
    (k_err k ++ flat_map (on_done s') new).
(** chunks/catchunks/main.cpp L262-282: the collector exists before the pipeline runs *)
Definition k_start : collector := k_update (Collector (a_init P) cwnd_header rtt_header []) (doRun P C (a_init P)).
Definition k_step (k : collector) (e : aevent) : collector := k_update k (a_step P C (k_pipe k) e).
Definition k_run (es : list aevent) : collector := fold_left k_step es k_start.
End Collector.
Arguments collector : clear implicits.
