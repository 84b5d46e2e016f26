(** ndncatchunks as a program: tools/chunks/catchunks/main.cpp, with everything it prints and its
    exit status.

    Environment: the command line has been parsed (Boost.Program_options); the usage text, the
    texts of exceptions and the text forms of names, Interests, Data packets and durations are
    arbitrary; so is the file system.  The version discovery and the pipeline receive any
    sequences of events.  At any time an exception may leave Face::processEvents, for instance if
    the connection to the forwarder breaks. *)
From Verif Require Import Base TlvModel PipelineBase FetcherModel FixedModel AdaptiveModel WindowModel ConsumerModel CatchunksModel
  PutchunksModel DiscoverModel ExitModel Double DumpModel PingModel PeekModel DecimalModel ChunksTextModel PeekRunModel CatMsgModel OptionsModel.
From Coq Require Import String List.
Import ListNotations.
Local Open Scope Z_scope.
Local Open Scope list_scope.

(** * Texts *)

(** std::to_string, operator<< of an integer *)
Definition int_text (z : Z) : text := if z <? 0 then str "-" ++ to_string (Z.to_N (- z)) else to_string (Z.to_N z).
(** operator<<(lp::NackReason) (ndn-cxx) *)
Definition nack_text (r : nack_reason) : text :=
  reason_text match r with NrNone => 0 | NrCongestion => 50 | NrDuplicate => 100 | NrNoRoute => 150 | NrOther c => c end%N.
(** count() / 1e6 of a number of nanoseconds *)
Definition millis (ns : Z) : text := double_text (quotient ns 1000000).
Definition hash (seg : N) : text := str "#" ++ to_string seg.

Section Texts.
Variable uri : name -> text.                      (* Name::toUri *)
(** operator<<(Interest): the name, and the how manieth Interest with it, which determines the
    nonce *)
Variable interest_text : name -> Z -> text.
Variable packet_text : packet -> text.            (* operator<<(Data), for the metadata *)
Variable data_text : N -> data -> text.           (* the same for a segment *)
Variable mark_text : data -> text.                (* getCongestionMark() *)
Variable component_text : component -> text.      (* operator<<(Component) *)
Variable metadata_error : packet -> text.         (* what() of the tlv::Error of MetadataObject *)
Variable final_error : data -> text.              (* the same of toSegment *)
Variable range_error : text.                      (* what() of std::out_of_range *)
Variable segment_name : N -> name.                (* the versioned name with a segment number *)
Variable metadata_name : name.                    (* the name of the discovery Interest *)

(** the places are given beside [cmsg] in CatMsgModel *)
Definition msg_text (m : cmsg) : text :=
  match m with
  | MRequest k => str "Requesting segment " ++ hash k ++ nl
  | MRetransmit k => str "Retransmitting segment " ++ hash k ++ nl
  | MRetries k n => str "# of retries for segment " ++ hash k ++ str " is " ++ int_text n ++ nl
  | MReceived k => str "Received segment " ++ hash k ++ nl
  | MReceivedRtt k rtt rto =>
      str "Received segment " ++ hash k ++ str ", rtt=" ++ millis rtt ++ str "ms" ++ str ", rto=" ++ millis rto ++ str "ms" ++ nl
  | MMark _ d w => str "Received congestion mark, value = " ++ mark_text d ++ str ", new cwnd = " ++ double_text w ++ nl
  | MLoss w t => str "Packet loss event, new cwnd = " ++ double_text w ++ str ", ssthresh = " ++ double_text t ++ nl
  | MNack k n r => str "Received Nack with reason " ++ nack_text r ++ str " for Interest " ++ interest_text (segment_name k) n ++ nl
  | MTimeout k n => str "Timeout for Interest " ++ interest_text (segment_name k) n ++ nl
  | MSummary t => t
  | MDiscNack n r => str "Received Nack with reason " ++ nack_text r ++ str " for Interest " ++ interest_text metadata_name n ++ nl
  | MDiscTimeout n => str "Timeout for Interest " ++ interest_text metadata_name n ++ nl
  | MMetadata p => str "Data: " ++ packet_text p ++ nl
  | MVersion n => str "Discovered Data version: " ++ match rev n with v :: _ => component_text v | [] => [] end ++ nl
  end.
(** all are printed with --verbose only, except the summary, which --quiet suppresses:
    fixed.cpp L155-157, adaptive.cpp L60-61, L284-286 *)
Definition shown (quiet verbose : bool) (m : cmsg) : bool := match m with MSummary _ => negb quiet | _ => verbose end.
Definition show (quiet verbose : bool) (m : list cmsg) : text := flat_map msg_text (filter (shown quiet verbose) m).

(** data-fetcher.cpp L134-148, L167-173 *)
Definition cause_text (r : Z) (n : name) (c : fcause) : text :=
  match c with
  | CNackReason x => str "Could not retrieve data for " ++ uri n ++ str ", reason: " ++ nack_text x
  | CNackLimit => str "Reached the maximum number of nack retries (" ++ int_text r ++ str ") while retrieving data for " ++ uri n
  | CTimeoutLimit => str "Reached the maximum number of timeout retries (" ++ int_text r ++ str ") while retrieving data for " ++ uri n
  end.
(** what() of the exception, which is the text given to the failure callback (consumer.cpp L51,
    L54) or comes from where [failure] says *)
Definition failure_text (r : Z) (f : failure) : text :=
  match f with
  | FlReason RNoFinal => str "Fetching terminated but no final segment number has been found"    (* fixed.cpp L73, L189, adaptive.cpp L379 *)
  | FlReason (RSegment k) => str "Failure retrieving segment " ++ hash k                         (* fixed.cpp L149 *)
  | FlReason (RMaxRetries k) =>                                                                  (* adaptive.cpp L133-135 *)
      str "Reached the maximum number of retries (" ++ int_text r ++ str ") while retrieving segment " ++ hash k
  | FlReason (RNack k x) => cause_text r (segment_name k) (CNackReason x)                        (* adaptive.cpp L316-317 *)
  | FlReason (RFetch _) => []                                                                    (* does not occur *)
  | FlSegment k c => cause_text r (segment_name k) c
  | FlDiscovery c => cause_text r metadata_name c
  | FlMetadata p => str "Invalid metadata packet: " ++ metadata_error p                          (* discover-version.cpp L81 *)
  | FlNotVersioned n => uri n ++ str " is not a valid versioned name"                            (* discover-version.cpp L86 *)
  | FlAppNack k d => str "Application generated Nack: " ++ data_text k d                         (* consumer.hpp L57-58 *)
  | FlFinalBlock _ d => final_error d
  | FlOutOfRange => range_error
  | FlOther what => what
  end.
(** main.cpp L297-308 *)
Definition error_line (what : text) : text := str "ERROR: " ++ what ++ nl.
End Texts.

(** * The options *)

(** main.cpp L59-152: the options that OptionsModel has, and the others *)
Record cat_args := CatArgs { ca_opts : cat_opts; ca_noDiscovery : bool; ca_fresh : bool; ca_alpha : f64; ca_beta : f64 }.
(** L153-164: what() of the exception; or whether --help, --version are given, and the options *)
Inductive cat_cmd := CmdError (what : text) | Cmd (help version : bool) (a : cat_args).

(** how the part of main before L290 ends *)
Inductive prepared :=
| Stop (r : run_result)
| Overflow                                    (* undefined behaviour *)
| Go (report : text) (n : name) (j : cat_job).

Section Options.
Variable usage help_text version_text : text.          (* L178-179, L167-168, L173 *)
Variable parse_name : string -> text + name.           (* the constructor of Name: what(), or the name *)
Variable face_error : option text.                     (* what() of an exception of the constructor of Face *)
Variable writable : string -> bool.                    (* whether a file can be opened for writing *)
Variable ms_text : Z -> text.                          (* operator<< of a number of milliseconds *)
Variables initial_rto backoff : Z.                     (* defaults of ndn-cxx *)

Definition yes_no (b : bool) : text := if b then str "yes" else str "no".
Definition tabbed (t : text) : text := tab ++ t ++ nl.

(** pipeline-interests.cpp L112-121 *)
Definition base_report (a : cat_args) : text :=
  let o := ca_opts a in
  str "Pipeline parameters:" ++ nl ++
  tabbed (str "Request fresh content = " ++ yes_no (ca_fresh a)) ++
  tabbed (str "Interest lifetime = " ++ ms_text (cc_lifetime o)) ++
  tabbed (str "Max retries on timeout or Nack = " ++
          if cc_retries o =? MAX_RETRIES_INFINITE then str "infinite" else int_text (cc_retries o)).
(** pipeline-interests-fixed.cpp L42-45 *)
Definition fixed_report (a : cat_args) : text :=
  base_report a ++ tabbed (str "Pipeline size = " ++ int_text (cc_size (ca_opts a))).
(** pipeline-interests-adaptive.cpp L405-419; options.hpp L52 *)
Definition adaptive_report (a : cat_args) : text :=
  let o := ca_opts a in
  base_report a ++
  tabbed (str "Initial congestion window size = " ++ double_text (cc_initCwnd o)) ++
  tabbed (str "Initial slow start threshold = " ++ double_text (cc_initSsthresh o)) ++
  tabbed (str "Additive increase step = " ++ double_text (cc_aiStep o)) ++
  tabbed (str "Multiplicative decrease factor = " ++ double_text (cc_mdCoef o)) ++
  tabbed (str "RTO check interval = " ++ ms_text 10) ++
  tabbed (str "React to congestion marks = " ++ yes_no (negb (cc_ignoreMarks o))) ++
  tabbed (str "Conservative window adaptation = " ++ yes_no (negb (cc_disableCwa o))) ++
  tabbed (str "Resetting window to " ++ (if cc_resetCwnd o then str "initial value" else str "ssthresh") ++ str " upon loss event").
(** pipeline-interests-cubic.cpp L41-45 *)
Definition cubic_report (a : cat_args) : text :=
  adaptive_report a ++ tabbed (str "Cubic beta = " ++ double_text (cc_cubicBeta (ca_opts a))) ++
  tabbed (str "Fast convergence = " ++ yes_no (cc_fastConv (ca_opts a))).
(** main.cpp L247-255 *)
Definition rtt_report (a : cat_args) : text :=
  let o := ca_opts a in
  str "RTT estimator parameters:" ++ nl ++
  tabbed (str "Alpha = " ++ double_text (ca_alpha a)) ++
  tabbed (str "Beta = " ++ double_text (ca_beta a)) ++
  tabbed (str "K = " ++ int_text (cc_rtoK o)) ++
  tabbed (str "Initial RTO = " ++ ms_text initial_rto) ++
  tabbed (str "Min RTO = " ++ ms_text (cc_minRto o)) ++
  tabbed (str "Max RTO = " ++ ms_text (cc_maxRto o)) ++
  tabbed (str "Backoff multiplier = " ++ int_text backoff).

(** main.cpp L154-288.  The checks are those of [cat_main], with their messages. *)
Definition cat_prepare (c : cat_cmd) : prepared :=
  let bad msg := Stop (RunResult [] (error_line msg) (Some 2)) in
  let failed what := Stop (RunResult [] (error_line what) (Some 1)) in
  match c with
  | CmdError what => bad what                                                                     (* L157-164 *)
  | Cmd help version a =>
      let o := ca_opts a in
      let say t := if cc_verbose o then t else [] in
      let unopened report path := Stop (RunResult [] (report ++ error_line (str "failed to open '" ++ str path ++ str "'")) (Some 4)) in
      let logs report j n :=
        if negb (empty (cc_logCwnd o)) && negb (writable (cc_logCwnd o)) then unopened report (cc_logCwnd o)     (* L267-273 *)
        else if negb (empty (cc_logRtt o)) && negb (writable (cc_logRtt o)) then unopened report (cc_logRtt o)   (* L274-280 *)
        else Go report n j in
      let A := AConfig (cc_retries o) (cc_ignoreMarks o) (cc_disableCwa o) d_appnack in
      if help then Stop (RunResult help_text [] (Some 0))                                          (* L166-170 *)
      else if version then Stop (RunResult version_text [] (Some 0))                               (* L172-175 *)
      else if empty (cc_prefix o) then Stop (RunResult [] usage (Some 2))                          (* L177-181 *)
      else if badConvention (cc_nameConv o)
           then bad (str "'" ++ str (cc_nameConv o) ++ str "' is not a valid naming convention")   (* L183-192 *)
      else if cc_lifetime o <? 0 then bad (str "--lifetime cannot be negative")                    (* L194-198 *)
      else if (cc_retries o <? -1) || (1024 <? cc_retries o)
           then bad (str "--retries must be between -1 and 1024")                                  (* L200-203 *)
      else if cc_quiet o && cc_verbose o
           then bad (str "cannot be quiet and verbose at the same time")                           (* L205-208 *)
      else if (cc_size o <? 1) || (1024 <? cc_size o)
           then bad (str "--pipeline-size must be between 1 and 1024")                             (* L210-213 *)
      else if cc_rtoK o <? 0 then bad (str "--rto-k cannot be negative")                           (* L215-218 *)
      else if negb (fits64 (cc_minRto o * 1000000)) then Overflow                                  (* L220 *)
      else if cc_minRto o * 1000000 <? 0 then bad (str "--min-rto cannot be negative")             (* L221-224 *)
      else if negb (fits64 (cc_maxRto o * 1000000)) then Overflow                                  (* L226 *)
      else if cc_maxRto o * 1000000 <? cc_minRto o * 1000000
           then bad (str "--max-rto cannot be smaller than --min-rto")                             (* L227-230 *)
      else match face_error with
           | Some what => failed what                                                              (* L233, L305-308 *)
           | None =>
               match parse_name (cc_prefix o) with
               | inl what => failed what                                                           (* L234, L305-308 *)
               | inr n =>
                   if String.eqb (cc_type o) "fixed" then                                          (* L241-243 *)
                     Go (say (fixed_report a)) n (JFixed (XConfig (Z.to_nat (cc_size o)) (cc_retries o) d_appnack))
                   else if String.eqb (cc_type o) "aimd" then                                      (* L244-284 *)
                     logs (say (rtt_report a ++ adaptive_report a))
                       (JAimd A (AimdOpts (cc_initCwnd o) (cc_initSsthresh o) (cc_aiStep o) (cc_mdCoef o) (cc_resetCwnd o))) n
                   else if String.eqb (cc_type o) "cubic" then
                     logs (say (rtt_report a ++ cubic_report a))
                       (JCubic A (CubicOpts (cc_initCwnd o) (cc_initSsthresh o) (cc_cubicBeta o) (cc_fastConv o))) n
                   else bad (str "'" ++ str (cc_type o) ++ str "' is not a valid pipeline type")   (* L285-288 *)
               end
           end
  end.
End Options.

(** * The run *)

(** a pipeline as a machine: the model of FixedModel or AdaptiveModel, with its messages and the
    exception that leaves it *)
Record machine := Machine {
  mc_state : Type; mc_event : Type;
  mc_start : mc_state; mc_hello : list cmsg;                (* PipelineInterests::run *)
  mc_step : mc_state -> mc_event -> mc_state; mc_says : mc_state -> mc_event -> list cmsg;
  mc_fails : mc_state -> mc_event -> option failure;
  mc_history : mc_state -> list pobs; mc_working : mc_state -> bool
}.
Definition fixed_machine (C : xconfig) (summary : xstate -> text) : machine :=
  Machine xstate xevent (x_run C []) (mx_start C) (x_step C) (mx_step C summary) (x_failure C) x_history x_working.
Definition adaptive_machine {W R} (P : policy W R) (C : aconfig) (cwnd ssthresh : W -> f64) (summary : @astate W R -> text) : machine :=
  Machine (@astate W R) aevent (a_run P C []) (ma_start P C summary) (a_step P C) (ma_step P C cwnd ssthresh summary) (a_failure P C)
    a_history a_working.

(** the events of the pipeline until it throws: the messages, the state, the exception *)
Fixpoint mc_run (M : machine) (s : mc_state M) (es : list (mc_event M)) : list cmsg * mc_state M * option failure :=
  match es with
  | [] => ([], s, None)
  | e :: es =>
      match mc_fails M s e with
      | Some f => (mc_says M s e, mc_step M s e, Some f)
      | None => let '(m, s', f) := mc_run M (mc_step M s e) es in (mc_says M s e ++ m, s', f)
      end
  end.

(** main.cpp L297-308 *)
Definition failure_status (f : failure) : Z := match f with FlAppNack _ _ => 3 | _ => 1 end.

Section Run.
Variable show : list cmsg -> text.
Variable explain : failure -> text.      (* [failure_text] *)
Variable dc : dconfig.
Variable M : machine.
(** main.cpp L290-311, consumer.cpp L40-57.  [des], [es]: what happens to the discovery and then
    to the pipeline.  [broken]: the exception, if any, that leaves processEvents afterwards; it
    has no effect when the program has ended before. *)
Definition cat_run (des : list devent) (es : list (mc_event M)) (broken : option text) : run_result :=
  let running out err :=
    match broken with
    | Some what => RunResult out (err ++ error_line what) (Some 1)
    | None => RunResult out err None
    end in
  let dm := md_run dc des in
  match d_failure_run dc des with
  | Some f => RunResult [] (show dm ++ error_line (explain f)) (Some (failure_status f))
  | None =>
      if existsb is_dsuccess (d_run dc des) then
        let '(m, s, f) := mc_run M (mc_start M) es in
        let out := catchunks_stdout (mc_history M s) in
        let err := show (dm ++ mc_hello M ++ m) in
        match f with
        | Some f => RunResult out (err ++ error_line (explain f)) (Some (failure_status f))
        | None => if mc_working M s then running out err else RunResult out err (Some 0)
        end
      else running [] (show dm)
  end.
End Run.

(** * The program *)
Section Program.
(** the texts, see above *)
Variables (uri : name -> text) (interest_text : name -> Z -> text) (packet_text : packet -> text) (data_text : N -> data -> text)
  (mark_text : data -> text) (component_text : component -> text) (metadata_error : packet -> text) (final_error : data -> text)
  (range_error : text).
Variables (usage help_text version_text : text) (parse_name : string -> text + name) (face_error : option text)
  (writable : string -> bool) (ms_text : Z -> text) (initial_rto backoff_factor : Z).
Variable elapsed : Z -> text.                                   (* see ChunksTextModel *)
(** the estimator of round-trip times of ndn-cxx, and the functions of the C library that CUBIC
    uses, as in WindowModel *)
Context {R : Type}.
Variables (r0 : R) (srtt rto : R -> Z) (sample : Z -> Z -> R -> R) (backoff : R -> R) (rtts : R -> option (Z * Z * Z))
  (cbrt pow3 : f64 -> f64).
(** the convention for segment numbers, main.cpp L183-192; the time that the fixed pipeline takes *)
Variables (cv : convention) (ns : Z).
(** the versioned name that the discovery has found *)
Definition found (dh : list dobs) : name := match find is_dsuccess dh with Some (DoSuccess n) => n | _ => [] end.

(** main.cpp L241-264 *)
Definition aimd_machine (C : aconfig) (o : aimd_opts) : machine :=
  adaptive_machine (aimd_policy o r0 rto sample backoff) C w_cwnd w_ssthresh (adaptive_text elapsed rtts).
Definition cubic_machine (C : aconfig) (o : cubic_opts) : machine :=
  adaptive_machine (cubic_policy cbrt pow3 o r0 srtt rto sample backoff) C cw_cwnd cw_ssthresh (adaptive_text elapsed rtts).
Definition plain_machine (C : xconfig) : machine := fixed_machine C (fun s => base_summary elapsed ns (x_b s)).

(** main.cpp L55-312.  [xes], [aes]: the events of a fixed and of an adaptive pipeline, of which
    only one exists.  [None]: undefined behaviour. *)
Definition catchunks_program (c : cat_cmd) (des : list devent) (xes : list xevent) (aes : list aevent) (broken : option text)
  : option run_result :=
  match cat_prepare usage help_text version_text parse_name face_error writable ms_text initial_rto backoff_factor c, c with
  | Stop r, _ => Some r
  | Go report n j, Cmd _ _ a =>
      let o := ca_opts a in
      let dc := DConfig (ca_noDiscovery a) (cc_retries o) n in
      let sname k := found (d_run dc des) ++ [segment_comp cv k] in
      let mname := discovery_name n in
      let say := show interest_text packet_text mark_text component_text sname mname (cc_quiet o) (cc_verbose o) in
      let why := failure_text uri data_text metadata_error final_error range_error sname mname (cc_retries o) in
      let r := match j with
               | JFixed C => cat_run say why dc (plain_machine C) des xes broken
               | JAimd C w => cat_run say why dc (aimd_machine C w) des aes broken
               | JCubic C w => cat_run say why dc (cubic_machine C w) des aes broken
               end in
      Some (RunResult (rr_stdout r) (report ++ rr_stderr r) (rr_status r))
  | _, _ => None
  end.
End Program.
