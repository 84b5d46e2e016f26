(** Model of what ndnping writes to the standard output: tools/ping/client/tracer.cpp,
    printSummary and printFull in client/statistics-collector.cpp, and client/main.cpp.

    Not modelled here: the time stamps of option -t, and the message for an exception
    (see PingRunModel.v). *)
From Verif Require Import Base TlvModel PingModel Double PingStatsModel DumpModel DecimalModel.
From Coq Require Import String.
From Coq Require Import List.
Import ListNotations.
Local Open Scope Z_scope.
Local Open Scope list_scope.

(** std::endl and "\n" *)
Definition newline : text := [10%N].

Section Text.
(** the URI of the prefix, and the name of the reason of the Nack for a sequence number *)
Variable uri : text.
Variable reason : N -> text.

(** tracer.cpp L37-68: onData, onNack, onTimeout, connected in L28-34 *)
Definition trace (x : gobs) : text :=
  match x with
  | GData k rtt => str "content from " ++ uri ++ str ": seq=" ++ to_string k ++ str " time=" ++ double_text (rtt_ms rtt) ++ str " ms" ++ newline
  | GNack k rtt => str "nack from " ++ uri ++ str ": seq=" ++ to_string k ++ str " time=" ++ double_text (rtt_ms rtt) ++ str " ms" ++ str " reason=" ++ reason k ++ newline
  | GTimeout k => str "timeout from " ++ uri ++ str ": seq=" ++ to_string k ++ newline
  | _ => []
  end.

(** operator<< of an int that is not negative *)
Definition count_text (n : Z) : text := to_string (Z.to_N n).
(** statistics-collector.cpp L109-111 and L130-132 *)
Definition rates_text (s : stats) : text :=
  if 0 <? n_sent (st_count s) then
    str ", " ++ double_text (fmul (packetLossRate s) (f_of_Z 100)) ++ str "% lost, " ++
    double_text (fmul (packetNackedRate s) (f_of_Z 100)) ++ str "% nacked"
  else [].
(** statistics-collector.cpp L113-116 and L136-139; [intro] is the text that differs *)
Definition rtts_text (intro : text) (s : stats) : text :=
  if 0 <? n_received (st_count s) then
    intro ++ str "min/avg/max/mdev = " ++ double_text (st_min s) ++ str "/" ++ double_text (avgRtt s) ++ str "/" ++
    double_text (st_max s) ++ str "/" ++ double_text (stdDevRtt s) ++ str " ms"
  else [].
(** statistics-collector.cpp L104-119 *)
Definition printSummary (s : stats) : text :=
  count_text (n_received (st_count s)) ++ str "/" ++ count_text (n_sent (st_count s)) ++ str " packets" ++
  rates_text s ++ rtts_text (str ", ") s ++ newline.
(** statistics-collector.cpp L121-142 *)
Definition printFull (s : stats) : text :=
  newline ++ str "--- " ++ uri ++ str " ping statistics ---" ++ newline ++
  count_text (n_sent (st_count s)) ++ str " packets transmitted" ++
  str ", " ++ count_text (n_received (st_count s)) ++ str " received" ++
  str ", " ++ count_text (n_nacked (st_count s)) ++ str " nacked" ++
  rates_text s ++ str ", time " ++ double_text (st_sum s) ++ str " ms" ++
  rtts_text (newline ++ str "rtt ") s ++ newline.

(** ** The standard output while the program runs *)
Record terminal := Terminal { tm_client : client; tm_out : text }.
(** what the tracer prints during a step *)
Definition new_trace (s s' : client) : text := flat_map trace (skipn (length (c_hist s)) (c_hist s')).
(** main.cpp L98-108: the summary for SIGQUIT, unless the wait was cancelled (L82) *)
Definition tm_step (o : gopts) (y : terminal) (e : gevent) : terminal :=
  let s := tm_client y in let s' := g_step o s e in
  Terminal s' (tm_out y ++ new_trace s s' ++
               match e with GeQuit => if c_cancelled s then [] else printSummary (stats_of (c_hist s)) | _ => [] end).
Definition tm_run (o : gopts) (es : list gevent) : terminal :=
  fold_left (tm_step o) es (Terminal (g_start o) (flat_map trace (c_hist (g_start o)))).
(** main.cpp L55-76: the whole output, after Face::processEvents returned *)
Definition ping_stdout (o : gopts) (es : list gevent) : text :=
  let y := tm_run o es in tm_out y ++ printFull (stats_of (c_hist (tm_client y))).
End Text.
