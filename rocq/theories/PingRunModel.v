(** ndnping as a program: tools/ping/client/main.cpp with ping.cpp, tracer.cpp and
    statistics-collector.cpp; everything it sends and prints, and its exit status.

    Environment: the command line has been parsed (Boost.Program_options); the text forms of
    names and exceptions, the usage text and the text of a point in time (time::toIsoString) are
    arbitrary.  The times are those of the steady clock in nanoseconds.  A timer does not expire
    early, and an Interest does not time out before its lifetime has passed.  An exception may
    leave Face::processEvents at any time. *)
From Verif Require Import Base TlvModel PingModel PingStatsModel PeekModel PeekPokeModel PeekWireModel DumpModel PingTextModel PeekRunModel.
From Coq Require Import String List.
Import ListNotations.
Local Open Scope Z_scope.
Local Open Scope list_scope.

(** client/main.cpp L144-167, the parsed options; [ga_count] is an int, [ga_start] a uint64_t *)
Record ping_args := PingArgs {
  ga_help : bool; ga_version : bool; ga_prefix : option text; ga_interval : Z; ga_timeout : Z; ga_count : option Z;
  ga_start : option N; ga_identifier : option text; ga_cache : bool; ga_timestamp : bool
}.
(** How the process ends: [GAborted] by an exception that nobody catches; what std::cout still
    held is lost then, and the texts of the result are left empty.  [GUndefined]: a number of
    milliseconds does not fit 64 bits of nanoseconds. *)
Inductive ping_end := GRunning | GExited (status : Z) | GAborted | GUndefined.
Record ping_result := PingResult { go_wire : list (Z * list N); go_stdout : text; go_stderr : text; go_end : ping_end }.

(** what may happen while ndnping runs: the timer of the next ping expires, an Interest is
    answered by Data or by a Nack with that reason, or times out; signals; an exception *)
Inductive ping_happens :=
| PhTimer | PhData (k : N) | PhNack (k : N) (code : N) | PhTimeout (k : N)
| PhInterrupt | PhQuit | PhFails (what : text).

(** main.cpp L217: isalnum in the C locale, false for octets above 127 *)
Definition alnum (c : N) : bool :=
  ((48 <=? c) && (c <=? 57) || (65 <=? c) && (c <=? 90) || (97 <=? c) && (c <=? 122))%N.

Section Ping.
Variable nonce : N -> list N.                 (* of the Interest with that sequence number *)
Variable parse_name : text -> option name.    (* the constructor of Name; None: an exception *)
Variable uri : name -> text.
Variable usage version : text.                (* main.cpp L121-127, L185 *)
Variable stamp : Z -> text.                   (* toIsoString of the time at that moment *)
Variable word64 : N.                          (* random::generateWord64 *)
Variable face_error : bool.                   (* the constructor of Face throws *)
Variable send_error : N -> text.              (* the exception when that ping cannot be sent *)

(** ping.cpp L57-66: the packet of a ping.  [None]: an exception, because the lifetime is
    negative, the name cannot be used for an Interest without parameters, or the packet is too
    long.  (Simplification: Face::expressInterest posts the encoding to the event loop, so that
    the exception may be thrown a moment later than here.) *)
Definition ping_packet (o : gopts) (timeout : Z) (k : N) : option (list N) :=
  if timeout <? 0 then None
  else peek_send (fun _ => []) (nonce k) (PeekRequest (makePingName o k) false (negb (g_stale o)) [] timeout None None).

(** The running program.  [gr_times]: the time points that the callbacks have captured, ping.cpp
    L62-66; [gr_due]: when the timer of L73 expires; [gr_failed]: the exception caught in
    main.cpp L61. *)
Record ping_running := PingRunning {
  gr_client : client; gr_times : list (N * Z); gr_due : Z; gr_wire : list (Z * list N); gr_out : text; gr_failed : option text
}.
(** the captured time point *)
Definition sent_time (r : ping_running) (k : N) : Z :=
  match find (fun e => N.eqb k (fst e)) (gr_times r) with Some e => snd e | None => 0 end.

(** ping.cpp L53-78 at the time [t] *)
Definition gr_perform (o : gopts) (a : ping_args) (t : Z) (r : ping_running) : ping_running :=
  let k := c_nextSeq (gr_client r) in
  match ping_packet o (ga_timeout a) k with
  | None => PingRunning (gr_client r) (gr_times r) (gr_due r) (gr_wire r) (gr_out r) (Some (send_error k))
  | Some w => PingRunning (performPing o (gr_client r)) (gr_times r ++ [(k, t)]) (t + ga_interval a * 1000000)
                          (gr_wire r ++ [(t, w)]) (gr_out r) None
  end.
(** tracer.cpp L39-41, L50-52, L61-63 *)
Definition stamp_text (a : ping_args) (t : Z) : text := if ga_timestamp a then stamp t ++ str " - " else [].
(** ping.cpp L80-101: the callbacks; the signals call the statistics collector and the tracer *)
Definition gr_answer (o : gopts) (a : ping_args) (u : text) (t : Z) (r : ping_running) (k code : N) (x : gobs) (e : gevent) : ping_running :=
  if existsb (N.eqb k) (c_pending (gr_client r)) then
    PingRunning (g_step o (gr_client r) e) (gr_times r) (gr_due r) (gr_wire r)
                (gr_out r ++ stamp_text a t ++ trace u (fun _ => reason_text code) x) None
  else r.
(** one thing that happens, main.cpp L58-65 and L88-108; when processEvents has returned, nothing
    happens any more *)
Definition gr_step (o : gopts) (a : ping_args) (u : text) (r : ping_running) (e : Z * ping_happens) : ping_running :=
  let t := fst e in
  match gr_failed r with
  | Some _ => r
  | None =>
      if g_ended (gr_client r) then r
      else match snd e with
           | PhTimer => if c_timer (gr_client r) && (gr_due r <=? t) then gr_perform o a t r else r
           | PhData k => let rtt := Z.to_N (t - sent_time r k) in gr_answer o a u t r k 0 (GData k rtt) (GeData k rtt)
           | PhNack k code => let rtt := Z.to_N (t - sent_time r k) in gr_answer o a u t r k code (GNack k rtt) (GeNack k rtt)
           | PhTimeout k =>
               if sent_time r k + ga_timeout a * 1000000 <=? t then gr_answer o a u t r k 0 (GTimeout k) (GeTimeout k) else r
           | PhInterrupt => PingRunning (g_step o (gr_client r) GeInterrupt) (gr_times r) (gr_due r) (gr_wire r) (gr_out r) None
           | PhQuit => PingRunning (gr_client r) (gr_times r) (gr_due r) (gr_wire r)
                         (gr_out r ++ if c_cancelled (gr_client r) then [] else printSummary (stats_of (c_hist (gr_client r)))) None
           | PhFails what => PingRunning (gr_client r) (gr_times r) (gr_due r) (gr_wire r) (gr_out r) (Some what)
           end
  end.
(** main.cpp L61-75 *)
Definition gr_result (u : text) (r : ping_running) : ping_result :=
  match gr_failed r with
  | Some what => PingResult (gr_wire r) (gr_out r) (str "ERROR: " ++ what ++ nl) (GExited 2)
  | None =>
      if g_ended (gr_client r) then
        let s := stats_of (c_hist (gr_client r)) in
        PingResult (gr_wire r) (gr_out r ++ printFull u s) []
                   (GExited (if n_received (st_count s) =? n_sent (st_count s) then 0 else 1))
      else PingResult (gr_wire r) (gr_out r) [] GRunning
  end.
(** main.cpp L241-242, L46-60; the milliseconds are converted to nanoseconds when the lifetime
    and the next ping are scheduled.  (Simplification: numbers that are too large count as
    undefined behaviour even if the first ping cannot be sent or is the only one.) *)
Definition ping_go (a : ping_args) (n : name) (t0 : Z) (es : list (Z * ping_happens)) : ping_result :=
  let o := GOpts n (ga_cache a) (match ga_count a with Some c => c | None => -1 end)
                 (match ga_start a with Some k => k | None => word64 end)
                 (match ga_identifier a with Some i => i | None => [] end) in
  let u := uri n in
  if face_error then PingResult [] [] [] GAborted
  else if (9223372036854775807 <? ga_timeout a * 1000000) || (9223372036854775807 <? ga_interval a * 1000000)
       then PingResult [] [] [] GUndefined
  else gr_result u (fold_left (gr_step o a u) es
         (gr_perform o a t0 (PingRunning (Client 0 (g_startSeq o) 0 false [] false []) [] 0 [] (str "PING " ++ u ++ nl) None))).

(** main.cpp L132-243; [inl]: the text of a po::error.  usage() writes to the standard output and
    exits with status 2, L118-129. *)
Definition ping_program (cmd : text + ping_args) (t0 : Z) (es : list (Z * ping_happens)) : ping_result :=
  let bad msg := PingResult [] usage (str "ERROR: " ++ msg ++ nl) (GExited 2) in
  match cmd with
  | inl what => bad what                                                              (* L234-237 *)
  | inr a =>
      if ga_help a then PingResult [] usage [] (GExited 2)                            (* L180-182 *)
      else if ga_version a then PingResult [] version [] (GExited 0)                  (* L184-187 *)
      else match ga_prefix a with
           | None => bad (str "No prefix specified")                                  (* L192-195 *)
           | Some p =>
               match parse_name p with
               | None => PingResult [] [] [] GAborted                                 (* L190: not a po::error *)
               | Some n =>
                   if ga_interval a <? 1                                              (* L197-201 *)
                   then bad (str "Specified ping interval is less than the minimum (1 ms)")
                   else if match ga_count a with Some c => c <=? 0 | None => false end    (* L205-210 *)
                   then bad (str "Number of ping must be positive")
                   else if match ga_identifier a with                                 (* L216-224 *)
                           | Some i => match i with [] => true | _ => negb (forallb alnum i) end
                           | None => false
                           end
                   then bad (str "Unacceptable client identifier")
                   else ping_go a n t0 es
               end
           end
  end.
End Ping.
