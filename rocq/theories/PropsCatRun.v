(** ndncatchunks as a program: C76. *)
From Verif Require Import Base TlvModel PipelineBase PipelineSpec FetcherModel FixedModel FixedSpec AdaptiveModel AdaptiveWitness WindowModel CatchunksModel
  PutchunksModel DiscoverModel ExitModel Double DumpModel PingModel DecimalModel ChunksTextModel PeekRunModel CatMsgModel OptionsModel
  CatLinesSpec CatFailSpec CatRunModel CatTextSpec CatRunSpec CatRunProofs CatReadProofs.
From Coq Require Import String List.
Import ListNotations.
Local Open Scope Z_scope.
Local Open Scope list_scope.

Section Environment.
(** Text forms of names, Interests, packets, components, durations and exceptions. *)
Variables (uri : name -> text) (interest_text : name -> Z -> text) (packet_text : packet -> text) (data_text : N -> data -> text)
  (mark_text : data -> text) (component_text : component -> text) (metadata_error : packet -> text) (final_error : data -> text)
  (range_error : text) (usage help_text version_text : text) (ms_text elapsed : Z -> text).
(** The names that the user may give, the connection to the forwarder, the files. *)
Variables (parse_name : string -> text + name) (face_error : option text) (writable : string -> bool).
(** The estimator of round-trip times, the C library, the naming convention, the time that a fixed
    pipeline takes. *)
Variables (initial_rto backoff_factor : Z) (R : Type) (r0 : R) (srtt rto : R -> Z) (sample : Z -> Z -> R -> R) (backoff : R -> R)
  (rtts : R -> option (Z * Z * Z)) (cbrt pow3 : f64 -> f64) (cv : convention) (ns : Z).
Notation ndncatchunks := (catchunks_program uri interest_text packet_text data_text mark_text component_text metadata_error final_error range_error
  usage help_text version_text parse_name face_error writable ms_text initial_rto backoff_factor elapsed r0 srtt rto sample backoff rtts cbrt pow3 cv ns).
Notation transfer := (transfer elapsed r0 srtt rto sample backoff rtts cbrt pow3 ns).

(** Options that are not acceptable are answered, with the message and the status that belong to
    them (undefined: an RTO bound that is not representable in nanoseconds).  With acceptable
    options, the data received so far is on the standard output; the standard error has the
    parameters (with --verbose), a line for every message about what happened, if wanted, and then
    an error line if the program has failed, with a reason that is true; the exit status is 0, 1 or
    3 accordingly.  The texts are those of CatTextSpec. *)
Theorem C76_program :
  forall (c : cat_cmd) (des : list devent) (xes : list xevent) (aes : list aevent) (broken : option text),
  match ndncatchunks c des xes aes broken with
  | None => exists a, c = Cmd false false a /\ ~ (representable (cc_minRto (ca_opts a)) /\ representable (cc_maxRto (ca_opts a)))
  | Some r =>
      answer usage help_text version_text parse_name face_error writable ms_text initial_rto backoff_factor c r \/
      exists a n j report lines xes1 xes2 aes1 aes2 err,
        c = Cmd false false a /\ acceptable parse_name face_error writable a n /\
        cat_main (fun s => match parse_name s with inl _ => false | inr _ => true end) writable (Parsed false false (ca_opts a)) = Proceed j /\
        xes = xes1 ++ xes2 /\ aes = aes1 ++ aes2 /\ (rr_status r = None -> (if is_fixed j then xes2 = [] else aes2 = [])) /\
        let o := ca_opts a in
        let dc := DConfig (ca_noDiscovery a) (cc_retries o) n in
        let dh := d_run dc des in
        let '(h, working, m) := transfer j xes1 aes1 in
        let started := existsb is_dsuccess dh in
        let sname k := found dh ++ [segment_comp cv k] in
        let mname := discovery_name n in
        rr_stdout r = (if started then catchunks_stdout h else []) /\
        rr_stderr r = report ++ concat lines ++ err /\
        (if cc_verbose o then parameters ms_text initial_rto backoff_factor a report else report = []) /\
        Forall2 (reads interest_text packet_text mark_text component_text sname mname)
          (filter (wanted (cc_quiet o) (cc_verbose o)) (md_run dc des ++ if started then m else [])) lines /\
        ends (fun f => discovery_explained (cc_retries o) dh f \/
                       (started = true /\ pipeline_explained (reason_true j (cc_retries o)) (cc_retries o) h f))
          (says_why uri data_text metadata_error final_error sname mname (cc_retries o))
          (catchunks_status dh working h) broken (rr_status r) err /\
        tells (cc_retries o) (is_fixed j) [] m h
  end.
Proof. exact (program_reads uri interest_text packet_text data_text mark_text component_text metadata_error final_error range_error
  usage help_text version_text parse_name face_error writable ms_text initial_rto backoff_factor elapsed r0 srtt rto sample backoff rtts cbrt pow3 cv ns). Qed.

(** No answer is given to acceptable options: the two cases above exclude each other. *)
Theorem C76_accepted :
  forall a n r, acceptable parse_name face_error writable a n ->
    ~ answer usage help_text version_text parse_name face_error writable ms_text initial_rto backoff_factor (Cmd false false a) r.
Proof. exact (acceptable_go usage help_text version_text parse_name face_error writable ms_text initial_rto backoff_factor). Qed.

(** Without --verbose, the standard error has nothing but the summary, once for each completion
    and never with --quiet, and the error line: none while the program runs and after success,
    exactly one after a failure. *)
Theorem C76_silent :
  forall a n des xes aes broken r,
  ndncatchunks (Cmd false false a) des xes aes broken = Some r ->
  acceptable parse_name face_error writable a n -> cc_verbose (ca_opts a) = false ->
  exists told err,
    rr_stderr r = told ++ err /\
    (cc_quiet (ca_opts a) = true -> told = []) /\
    match rr_status r with
    | None => err = []
    | Some s => if s =? 0 then err = [] else exists what, err = str "ERROR: " ++ what ++ nl
    end /\
    exists j xes1 xes2 aes1 aes2,
      cat_main (fun s => match parse_name s with inl _ => false | inr _ => true end) writable (Parsed false false (ca_opts a)) = Proceed j /\
      xes = xes1 ++ xes2 /\ aes = aes1 ++ aes2 /\
      let '(h, _, _) := transfer j xes1 aes1 in
      let dh := d_run (DConfig (ca_noDiscovery a) (cc_retries (ca_opts a)) n) des in
      cc_quiet (ca_opts a) = false ->
      exists texts, told = concat texts /\
        Z.of_nat (List.length texts) = if existsb is_dsuccess dh then completions h else 0.
Proof. exact (program_silent uri interest_text packet_text data_text mark_text component_text metadata_error final_error range_error
  usage help_text version_text parse_name face_error writable ms_text initial_rto backoff_factor elapsed r0 srtt rto sample backoff rtts cbrt pow3 cv ns). Qed.
End Environment.
Print Assumptions C76_program.
Print Assumptions C76_accepted.
Print Assumptions C76_silent.

(** A program in a simple environment: the name "x" is parsed to a name that ends with a version,
    files cannot be written. *)
Definition ex_program (c : cat_cmd) (des : list devent) (xes : list xevent) (aes : list aevent) (broken : option text) : option run_result :=
  catchunks_program (fun _ => str "U") (fun _ _ => str "I") (fun _ => str "P") (fun _ _ => str "D") (fun _ => str "1") (fun _ => str "V")
    (fun _ => str "E") (fun _ => str "F") (str "R") (str "usage") (str "help") (str "version")
    (fun s => if String.eqb s "x" then inr [Comp TVersion [1]%N] else inl (str "bad name")) None (fun _ => false) (fun _ => str "T") 1000 2
    (fun _ => str "1 second") tt (fun _ => 0) (fun _ => 1000000) (fun _ _ x => x) (fun x => x) (fun _ => None) (fun x => x) (fun x => x) CvTyped 1000000000
    c des xes aes broken.
Definition ex_args (type log : string) (quiet verbose : bool) (retries : Z) : cat_cmd :=
  Cmd false false (CatArgs (CatOpts "x" "" 4000 retries quiet verbose type 2 false false 8 200 60000 (f_of_Z 2) (f_of_Z 9) (f_of_Z 1) f0 false f0 false log "")
    false false f0 f0).
Definition ex_events : list xevent := [XeTimeout 0; XeData 1 (dat [67]%N (FbiSegment 1)); XeData 0 (dat [65; 66]%N FbiAbsent)].
Definition errors (r : option run_result) : text := match r with Some r => rr_stderr r | None => [] end.

Example C76_success_ex :
  ex_program (ex_args "fixed" "" true false 1) [] ex_events [] None = Some (RunResult [65; 66; 67]%N [] (Some 0)) /\
  ex_program (ex_args "fixed" "" false false 1) [] ex_events [] None =
    Some (RunResult [65; 66; 67]%N (str "

All segments have been received.
Time elapsed: 1 second
Segments received: 2
Transferred size: 0.003 kB
Goodput: 24.000000 bit/s
") (Some 0)).
Proof. vm_compute. split; reflexivity. Qed.
Example C76_verbose_ex :
  errors (ex_program (ex_args "fixed" "" false true 1) [] ex_events [] None) =
    str "Pipeline parameters:
	Request fresh content = no
	Interest lifetime = T
	Max retries on timeout or Nack = 1
	Pipeline size = 2
Requesting segment #0
Requesting segment #1
Timeout for Interest I
Received segment #1
Received segment #0


All segments have been received.
Time elapsed: 1 second
Segments received: 2
Transferred size: 0.003 kB
Goodput: 24.000000 bit/s
".
Proof. vm_compute. reflexivity. Qed.
Example C76_failure_ex :
  ex_program (ex_args "fixed" "" false false 0) [] [XeData 1 (dat [67]%N (FbiSegment 1)); XeTimeout 0; XeData 0 (dat [65; 66]%N FbiAbsent)] [] None =
    Some (RunResult [] (str "ERROR: Reached the maximum number of timeout retries (0) while retrieving data for U
") (Some 1)) /\
  ex_program (ex_args "aimd" "" false false 1) [] [] [AeData 0 (Data [] FbiAbsent false true)] None =
    Some (RunResult [] (str "ERROR: Application generated Nack: D
") (Some 3)) /\
  ex_program (ex_args "aimd" "" false false 1) [] [] [AeData 0 (dat [65]%N FbiAbsent)] (Some (str "connection lost")) =
    Some (RunResult [65]%N (str "ERROR: connection lost
") (Some 1)) /\
  ex_program (ex_args "aimd" "f" false false 1) [] [] [] None = Some (RunResult [] (str "ERROR: failed to open 'f'
") (Some 4)) /\
  ex_program (ex_args "AIMD" "f" false false 1025) [] [] [] None = Some (RunResult [] (str "ERROR: --retries must be between -1 and 1024
") (Some 2)).
Proof. vm_compute. repeat split. Qed.
