(** What the user of ndncatchunks sees: the complaints about the options, and the standard error
    and the exit status of a run. *)
From Verif Require Import Base TlvModel PipelineBase PipelineSpec FetcherModel FixedModel FixedSpec AdaptiveModel WindowModel CatchunksModel
  PutchunksModel DiscoverModel ExitModel Double DumpModel PingModel DecimalModel ChunksTextModel PeekRunModel CatMsgModel CatLinesSpec CatFailSpec OptionsModel CatRunModel CatTextSpec.
From Coq Require Import String List.
Import ListNotations.
Local Open Scope Z_scope.
Local Open Scope list_scope.

(** ** The options *)

(** The option values that ndncatchunks does not accept, with what it says about them. *)
Inductive unacceptable (o : cat_opts) : text -> Prop :=
| U_convention :
    ~ In (cc_nameConv o) ["marker"; "m"; "1"; "typed"; "t"; "2"; ""]%string ->
    unacceptable o (str "'" ++ str (cc_nameConv o) ++ str "' is not a valid naming convention")
| U_lifetime : cc_lifetime o < 0 -> unacceptable o (str "--lifetime cannot be negative")
| U_retries : ~ (-1 <= cc_retries o <= 1024) -> unacceptable o (str "--retries must be between -1 and 1024")
| U_quiet : cc_quiet o = true -> cc_verbose o = true -> unacceptable o (str "cannot be quiet and verbose at the same time")
| U_size : ~ (1 <= cc_size o <= 1024) -> unacceptable o (str "--pipeline-size must be between 1 and 1024")
| U_rtoK : cc_rtoK o < 0 -> unacceptable o (str "--rto-k cannot be negative")
| U_minRto : cc_minRto o < 0 -> unacceptable o (str "--min-rto cannot be negative")
| U_maxRto : cc_maxRto o < cc_minRto o -> unacceptable o (str "--max-rto cannot be smaller than --min-rto")
| U_type :
    ~ In (cc_type o) ["fixed"; "aimd"; "cubic"]%string ->
    unacceptable o (str "'" ++ str (cc_type o) ++ str "' is not a valid pipeline type").

(** A duration of that many milliseconds is representable. *)
Definition representable (ms : Z) : Prop := - 2 ^ 63 <= ms * 1000000 < 2 ^ 63.

(** How the program may end before it sends anything. *)
Section Answers.
Variables (usage help_text version_text : text) (parse_name : string -> text + name) (face_error : option text) (writable : string -> bool)
  (ms_text : Z -> text) (initial_rto backoff : Z).
Inductive answer : cat_cmd -> run_result -> Prop :=
| A_malformed what : answer (CmdError what) (RunResult [] (str "ERROR: " ++ what ++ nl) (Some 2))
| A_help v a : answer (Cmd true v a) (RunResult help_text [] (Some 0))
| A_version a : answer (Cmd false true a) (RunResult version_text [] (Some 0))
| A_usage a : cc_prefix (ca_opts a) = ""%string -> answer (Cmd false false a) (RunResult [] usage (Some 2))
| A_unacceptable a msg :
    cc_prefix (ca_opts a) <> ""%string -> unacceptable (ca_opts a) msg ->
    answer (Cmd false false a) (RunResult [] (str "ERROR: " ++ msg ++ nl) (Some 2))
| A_face a what :
    cc_prefix (ca_opts a) <> ""%string -> face_error = Some what ->
    answer (Cmd false false a) (RunResult [] (str "ERROR: " ++ what ++ nl) (Some 1))
| A_name a what :
    parse_name (cc_prefix (ca_opts a)) = inl what ->
    answer (Cmd false false a) (RunResult [] (str "ERROR: " ++ what ++ nl) (Some 1))
| A_log a path report :
    In path [cc_logCwnd (ca_opts a); cc_logRtt (ca_opts a)] -> path <> ""%string -> writable path = false ->
    cc_type (ca_opts a) <> "fixed"%string ->
    (if cc_verbose (ca_opts a) then parameters ms_text initial_rto backoff a report else report = []) ->
    answer (Cmd false false a) (RunResult [] (report ++ str "ERROR: failed to open '" ++ str path ++ str "'" ++ nl) (Some 4)).
(** The options with which it goes on. *)
Record acceptable (a : cat_args) (n : name) : Prop := Acceptable {
  ok_prefix : cc_prefix (ca_opts a) <> ""%string;
  ok_values : forall msg, ~ unacceptable (ca_opts a) msg;
  ok_face : face_error = None;
  ok_name : parse_name (cc_prefix (ca_opts a)) = inr n;
  ok_logs : cc_type (ca_opts a) = "fixed"%string \/
            forall path, In path [cc_logCwnd (ca_opts a); cc_logRtt (ca_opts a)] -> path = ""%string \/ writable path = true
}.
End Answers.

(** ** A run *)

(** What is reported as a failure: [what] is said, and the program ends with [status].  [because]:
    the failure, as told, and what it says. *)
(* an auxiliary form of [ends] of CatTextSpec *)
Inductive ends_with (explain : failure -> text) (because : failure -> Prop) (over : option Z) (broken : option text)
  : option Z -> text -> Prop :=
| E_running : over = None -> broken = None -> ends_with explain because over broken None []
| E_broken what :
    over = None -> broken = Some what ->
    ends_with explain because over broken (Some 1) (str "ERROR: " ++ what ++ nl)
| E_success : over = Some 0 -> ends_with explain because over broken (Some 0) []
| E_nack f :
    over = Some 3 -> because f -> (exists seg d, f = FlAppNack seg d) ->
    ends_with explain because over broken (Some 3) (str "ERROR: " ++ explain f ++ nl)
| E_failure f :
    over = Some 1 -> because f -> ~ (exists seg d, f = FlAppNack seg d) ->
    ends_with explain because over broken (Some 1) (str "ERROR: " ++ explain f ++ nl).

(** ** The whole program *)
Section Program.
Variable elapsed : Z -> text.
Context {R : Type}.
Variables (r0 : R) (srtt rto : R -> Z) (sample : Z -> Z -> R -> R) (backoff : R -> R) (rtts : R -> option (Z * Z * Z))
  (cbrt pow3 : f64 -> f64).
Variable ns : Z.
(** a transfer with the configured pipeline: its history, whether it still waits for something,
    and the messages *)
Definition transfer (j : cat_job) (xes : list xevent) (aes : list aevent) : list pobs * bool * list cmsg :=
  match j with
  | JFixed C => (x_history (x_run C xes), x_working (x_run C xes), mx_run C (fun s => base_summary elapsed ns (x_b s)) xes)
  | JAimd C o =>
      let P := aimd_policy o r0 rto sample backoff in
      (a_history (a_run P C aes), a_working (a_run P C aes), ma_run P C w_cwnd w_ssthresh (adaptive_text elapsed rtts) aes)
  | JCubic C o =>
      let P := cubic_policy cbrt pow3 o r0 srtt rto sample backoff in
      (a_history (a_run P C aes), a_working (a_run P C aes), ma_run P C cw_cwnd cw_ssthresh (adaptive_text elapsed rtts) aes)
  end.
End Program.
Definition is_fixed (j : cat_job) : bool := match j with JFixed _ => true | _ => false end.
(** when a reason given by that pipeline is true *)
Definition reason_true (j : cat_job) (retries : Z) : list pobs -> freason -> Prop :=
  if is_fixed j then failure_caused_fixed retries else failure_justified retries.
