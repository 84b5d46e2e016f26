(** Properties of the output of ndnping: C61, C62. *)
From Verif Require Import Base TlvModel PingModel PingSpec PingStatsSpec DumpModel DumpSpec DecimalSpec PingTextModel PingTextSpec PingTextProofs PingTextProofs2.
From Coq Require Import String Reals.
From Coq Require Import List.
Import ListNotations.
Local Open Scope list_scope.

(** * C61 ndnping prints one line per ping *)

(** Without SIGQUIT, the output is one line for every ping that was answered by Data, answered
    by a Nack or timed out, in that order, with its sequence number and its round-trip time to
    six digits, and then the statistics of exactly these pings. *)
Theorem C61_output :
  forall (uri : text) (reason : N -> text) (o : gopts) (es : list gevent),
    valid_gopts o -> measurable es -> ~ In GeQuit es ->
    exists lines rep,
      ping_stdout uri reason o es = concat lines ++ rep /\
      Forall2 (line uri reason) (outcomes (c_hist (g_run o es))) lines /\
      report uri (c_hist (g_run o es)) rep.
Proof. exact (fun uri reason o es V M Q => whole_output o V uri reason es Q M). Qed.
Print Assumptions C61_output.

(** Every event adds the lines of the pings that it settled, at once, ... *)
Theorem C61_step :
  forall (uri : text) (reason : N -> text) (o : gopts) (es : list gevent) (e : gevent),
    valid_gopts o -> e <> GeQuit -> measurable (es ++ [e]) ->
    exists new lines,
      c_hist (g_run o (es ++ [e])) = c_hist (g_run o es) ++ new /\
      tm_out (tm_run uri reason o (es ++ [e])) = tm_out (tm_run uri reason o es) ++ concat lines /\
      Forall2 (line uri reason) (outcomes new) lines.
Proof. exact (fun uri reason o es e V => out_step o V uri reason es e). Qed.
Print Assumptions C61_step.

(** ... SIGQUIT adds a summary of the pings so far, unless the program is about to end, ... *)
Theorem C61_quit :
  forall (uri : text) (reason : N -> text) (o : gopts) (es : list gevent),
    valid_gopts o -> measurable es ->
    exists t, tm_out (tm_run uri reason o (es ++ [GeQuit])) = tm_out (tm_run uri reason o es) ++ t /\
      (if c_cancelled (g_run o es) then t = [] else summary (c_hist (g_run o es)) t).
Proof. exact (fun uri reason o es V => out_quit o V uri reason es). Qed.
Print Assumptions C61_quit.

(** ... and the end of the program adds the statistics. *)
Theorem C61_end :
  forall (uri : text) (reason : N -> text) (o : gopts) (es : list gevent),
    valid_gopts o -> measurable es ->
    exists rep, ping_stdout uri reason o es = tm_out (tm_run uri reason o es) ++ rep /\ report uri (c_hist (g_run o es)) rep.
Proof. exact (fun uri reason o es V => end_output o V uri reason es). Qed.
Print Assumptions C61_end.

(** The output can be read back: from two executions with the same output, the outcomes are the
    same, in the same order, with the same sequence numbers, and with times that differ by at
    most eleven millionths. *)
Theorem C61_readable :
  forall (uri : text) (reason reason' : N -> text) (o o' : gopts) (es es' : list gevent),
    one_line uri -> (forall k, one_line (reason k)) -> (forall k, one_line (reason' k)) ->
    valid_gopts o -> valid_gopts o' -> measurable es -> measurable es' -> ~ In GeQuit es -> ~ In GeQuit es' ->
    ping_stdout uri reason o es = ping_stdout uri reason' o' es' ->
    Forall2 same_outcome (outcomes (c_hist (g_run o es))) (outcomes (c_hist (g_run o' es'))).
Proof. exact (fun uri reason reason' o o' es es' U R R' => read_output uri reason reason' U R R' o o' es es'). Qed.
Print Assumptions C61_readable.

Definition c61_opts : gopts := GOpts [] false 4 7 [].
Definition c61_events : list gevent :=
  [GeData 7 1234567; GeTimer; GeNack 8 999999; GeTimer; GeTimeout 9; GeTimer; GeData 10 20000000].
Example c61_reachable :
  valid_gopts c61_opts /\ measurable c61_events /\ ~ In GeQuit c61_events /\
  g_ended (g_run c61_opts c61_events) = true.
Proof.
  split; [split; [right; reflexivity|reflexivity]|]. split; [split; [repeat constructor|reflexivity]|].
  split; [|reflexivity]. intros H. repeat destruct H as [H|H]; try discriminate. exact H.
Qed.
Example c61_text : ping_stdout (str "/A") (fun _ => str "NoRoute") c61_opts c61_events =
  str "content from /A: seq=7 time=1.23457 ms" ++ newline ++
  str "nack from /A: seq=8 time=0.999999 ms reason=NoRoute" ++ newline ++
  str "timeout from /A: seq=9" ++ newline ++
  str "content from /A: seq=10 time=20 ms" ++ newline ++
  newline ++ str "--- /A ping statistics ---" ++ newline ++
  str "4 packets transmitted, 2 received, 1 nacked, 25% lost, 25% nacked, time 21.2346 ms" ++ newline ++
  str "rtt min/avg/max/mdev = 1.23457/10.6173/20/9.38272 ms" ++ newline.
Proof. vm_compute. reflexivity. Qed.

(** * C62 The printed statistics are those of the pings *)

(** For every history of pings: the counters are exact, the percentages are right to 0.0006 and
    zero only for nothing, the times are right to six millionths. *)
Theorem C62_report :
  forall (uri : text) (h : list gobs), plausible h -> report uri h (printFull uri (PingStatsModel.stats_of h)).
Proof. exact (fun uri h P => report_ok h P uri). Qed.
Print Assumptions C62_report.
Theorem C62_summary :
  forall (h : list gobs), plausible h -> summary h (printSummary (PingStatsModel.stats_of h)).
Proof. exact summary_ok. Qed.
Print Assumptions C62_summary.

(** But with six digits, "100% lost" does not mean that nothing was received. *)
Theorem C62_hundred_percent_refuted : exists o es uri reason pre post,
  valid_gopts o /\ measurable es /\ g_ended (g_run o es) = true /\
  data_seqs (c_hist (g_run o es)) <> [] /\
  ping_stdout uri reason o es = pre ++ str ", 100% lost, 0% nacked" ++ post.
Proof. exact hundred_percent. Qed.
Print Assumptions C62_hundred_percent_refuted.

Example c62_plausible : plausible (c_hist (g_run c61_opts c61_events)) /\
  printSummary (PingStatsModel.stats_of (c_hist (g_run c61_opts c61_events))) =
  str "2/4 packets, 25% lost, 25% nacked, min/avg/max/mdev = 1.23457/10.6173/20/9.38272 ms" ++ newline.
Proof. split; [split; [repeat constructor|reflexivity]|vm_compute; reflexivity]. Qed.
