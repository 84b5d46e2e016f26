(** How the messages of ndncatchunks read: its lines, its reasons for failures and its parameters,
    letter by letter. *)
From Verif Require Import Base TlvModel PipelineBase FetcherModel PutchunksModel DiscoverModel Double DumpModel DumpSpec DecimalSpec PingTextSpec
  ChunksTextSpec OptionsModel CatMsgModel CatRunModel.
From Coq Require Import String Reals List.
From Flocq Require Import BinarySingleNaN.
Import ListNotations.
Local Open Scope Z_scope.
Local Open Scope list_scope.

(** ** Numbers *)
Definition shows_int (t : text) (z : Z) : Prop := 0 <= z < 18446744073709551616 -> t <> [] /\ decimal t (Z.to_N z).
Definition shows_seg (t : text) (k : N) : Prop := shows_int t (Z.of_N k).
Definition shows_double (t : text) (w : f64) : Prop := is_finite w = true -> literal t (six_digit (B2R w)).
Inductive names_reason : nack_reason -> text -> Prop :=
| Nr_congestion : names_reason NrCongestion (str "Congestion")
| Nr_duplicate : names_reason NrDuplicate (str "Duplicate")
| Nr_noroute : names_reason NrNoRoute (str "NoRoute")
| Nr_none : names_reason NrNone (str "None")
| Nr_known c t : In (c, t) [(50%N, str "Congestion"); (100%N, str "Duplicate"); (150%N, str "NoRoute")] -> names_reason (NrOther c) t
| Nr_other c : ~ In c [50; 100; 150]%N -> names_reason (NrOther c) (str "None").

Section Texts.
Variables (uri : name -> text) (interest_text : name -> Z -> text) (packet_text : packet -> text) (data_text : N -> data -> text)
  (mark_text : data -> text) (component_text : component -> text) (metadata_error : packet -> text) (final_error : data -> text).
(** the name of a segment and of the metadata *)
Variables (segment_name : N -> name) (metadata_name : name).

(** ** The lines *)
Inductive reads : cmsg -> text -> Prop :=
| R_request k t : shows_seg t k -> reads (MRequest k) (str "Requesting segment #" ++ t ++ LF)
| R_retransmit k t : shows_seg t k -> reads (MRetransmit k) (str "Retransmitting segment #" ++ t ++ LF)
| R_retries k n t c : shows_seg t k -> shows_int c n -> reads (MRetries k n) (str "# of retries for segment #" ++ t ++ str " is " ++ c ++ LF)
| R_received k t : shows_seg t k -> reads (MReceived k) (str "Received segment #" ++ t ++ LF)
| R_rtt k rtt rto t a b :
    shows_seg t k -> shows_ms a rtt -> shows_ms b rto ->
    reads (MReceivedRtt k rtt rto) (str "Received segment #" ++ t ++ str ", rtt=" ++ a ++ str "ms, rto=" ++ b ++ str "ms" ++ LF)
| R_mark k d w t :
    shows_double t w -> reads (MMark k d w) (str "Received congestion mark, value = " ++ mark_text d ++ str ", new cwnd = " ++ t ++ LF)
| R_loss w th t u :
    shows_double t w -> shows_double u th ->
    reads (MLoss w th) (str "Packet loss event, new cwnd = " ++ t ++ str ", ssthresh = " ++ u ++ LF)
| R_nack k n r t :
    names_reason r t ->
    reads (MNack k n r) (str "Received Nack with reason " ++ t ++ str " for Interest " ++ interest_text (segment_name k) n ++ LF)
| R_timeout k n : reads (MTimeout k n) (str "Timeout for Interest " ++ interest_text (segment_name k) n ++ LF)
| R_summary t : reads (MSummary t) t
| R_disc_nack n r t :
    names_reason r t -> reads (MDiscNack n r) (str "Received Nack with reason " ++ t ++ str " for Interest " ++ interest_text metadata_name n ++ LF)
| R_disc_timeout n : reads (MDiscTimeout n) (str "Timeout for Interest " ++ interest_text metadata_name n ++ LF)
| R_metadata p : reads (MMetadata p) (str "Data: " ++ packet_text p ++ LF)
| R_version n v : reads (MVersion (n ++ [v])) (str "Discovered Data version: " ++ component_text v ++ LF).
(** which of them the user wants to see *)
Definition wanted (quiet verbose : bool) (m : cmsg) : bool :=
  match m with MSummary _ => if quiet then false else true | _ => verbose end.

(** ** The reasons *)
(** why the Data with that name could not be fetched with [r] retries *)
Inductive fetch_reason (r : Z) (n : name) : fcause -> text -> Prop :=
| F_nack x t : names_reason x t -> fetch_reason r n (CNackReason x) (str "Could not retrieve data for " ++ uri n ++ str ", reason: " ++ t)
| F_nacks c : shows_int c r ->
    fetch_reason r n CNackLimit (str "Reached the maximum number of nack retries (" ++ c ++ str ") while retrieving data for " ++ uri n)
| F_timeouts c : shows_int c r ->
    fetch_reason r n CTimeoutLimit (str "Reached the maximum number of timeout retries (" ++ c ++ str ") while retrieving data for " ++ uri n).
Inductive says_why (r : Z) : failure -> text -> Prop :=
| Y_nofinal : says_why r (FlReason RNoFinal) (str "Fetching terminated but no final segment number has been found")
| Y_segment k t : shows_seg t k -> says_why r (FlReason (RSegment k)) (str "Failure retrieving segment #" ++ t)
| Y_retries k t c : shows_seg t k -> shows_int c r ->
    says_why r (FlReason (RMaxRetries k)) (str "Reached the maximum number of retries (" ++ c ++ str ") while retrieving segment #" ++ t)
| Y_nack k x t : names_reason x t ->
    says_why r (FlReason (RNack k x)) (str "Could not retrieve data for " ++ uri (segment_name k) ++ str ", reason: " ++ t)
| Y_fetch k c t : fetch_reason r (segment_name k) c t -> says_why r (FlSegment k c) t
| Y_discovery c t : fetch_reason r metadata_name c t -> says_why r (FlDiscovery c) t
| Y_metadata p : says_why r (FlMetadata p) (str "Invalid metadata packet: " ++ metadata_error p)
| Y_version n : says_why r (FlNotVersioned n) (uri n ++ str " is not a valid versioned name")
| Y_appnack k d : says_why r (FlAppNack k d) (str "Application generated Nack: " ++ data_text k d)
| Y_final k d : says_why r (FlFinalBlock k d) (final_error d).
End Texts.

(** ** The parameters, which are listed first *)
Definition entry (label : string) (value : text) : text := TAB ++ str label ++ str " = " ++ value ++ LF.
Definition answer_text (b : bool) : text := if b then str "yes" else str "no".
Definition shows_retries (t : text) (r : Z) : Prop := if r =? -1 then t = str "infinite" else shows_int t r.
Section Parameters.
Variables (ms_text : Z -> text) (initial_rto backoff : Z).

Definition common_parameters (a : cat_args) (p : text) : Prop :=
  exists r, shows_retries r (cc_retries (ca_opts a)) /\
    p = str "Pipeline parameters:" ++ LF ++ entry "Request fresh content" (answer_text (ca_fresh a)) ++
        entry "Interest lifetime" (ms_text (cc_lifetime (ca_opts a))) ++ entry "Max retries on timeout or Nack" r.
Definition adaptive_parameters (a : cat_args) (p : text) : Prop :=
  let o := ca_opts a in
  exists c cwnd thresh step coef,
    common_parameters a c /\ shows_double cwnd (cc_initCwnd o) /\ shows_double thresh (cc_initSsthresh o) /\
    shows_double step (cc_aiStep o) /\ shows_double coef (cc_mdCoef o) /\
    p = c ++ entry "Initial congestion window size" cwnd ++ entry "Initial slow start threshold" thresh ++
        entry "Additive increase step" step ++ entry "Multiplicative decrease factor" coef ++
        entry "RTO check interval" (ms_text 10) ++
        entry "React to congestion marks" (answer_text (if cc_ignoreMarks o then false else true)) ++
        entry "Conservative window adaptation" (answer_text (if cc_disableCwa o then false else true)) ++
        TAB ++ (if cc_resetCwnd o then str "Resetting window to initial value upon loss event"
                else str "Resetting window to ssthresh upon loss event") ++ LF.
Definition rtt_parameters (a : cat_args) (p : text) : Prop :=
  let o := ca_opts a in
  exists alpha beta k b,
    shows_double alpha (ca_alpha a) /\ shows_double beta (ca_beta a) /\ shows_int k (cc_rtoK o) /\ shows_int b backoff /\
    p = str "RTT estimator parameters:" ++ LF ++ entry "Alpha" alpha ++ entry "Beta" beta ++ entry "K" k ++
        entry "Initial RTO" (ms_text initial_rto) ++ entry "Min RTO" (ms_text (cc_minRto o)) ++ entry "Max RTO" (ms_text (cc_maxRto o)) ++
        entry "Backoff multiplier" b.
Inductive parameters (a : cat_args) : text -> Prop :=
| P_fixed c n : cc_type (ca_opts a) = "fixed"%string -> common_parameters a c -> shows_int n (cc_size (ca_opts a)) ->
    parameters a (c ++ entry "Pipeline size" n)
| P_aimd r p : cc_type (ca_opts a) = "aimd"%string -> rtt_parameters a r -> adaptive_parameters a p -> parameters a (r ++ p)
| P_cubic r p b : cc_type (ca_opts a) = "cubic"%string -> rtt_parameters a r -> adaptive_parameters a p ->
    shows_double b (cc_cubicBeta (ca_opts a)) ->
    parameters a (r ++ p ++ entry "Cubic beta" b ++ entry "Fast convergence" (answer_text (cc_fastConv (ca_opts a)))).
End Parameters.

(** ** The end: [because]: the failure; [says]: what is said about it *)
Inductive ends (because : failure -> Prop) (says : failure -> text -> Prop) (over : option Z) (broken : option text)
  : option Z -> text -> Prop :=
| N_running : over = None -> broken = None -> ends because says over broken None []
| N_broken what : over = None -> broken = Some what -> ends because says over broken (Some 1) (str "ERROR: " ++ what ++ LF)
| N_success : over = Some 0 -> ends because says over broken (Some 0) []
| N_nack seg d t :
    over = Some 3 -> because (FlAppNack seg d) -> says (FlAppNack seg d) t ->
    ends because says over broken (Some 3) (str "ERROR: " ++ t ++ LF)
| N_failure f t :
    over = Some 1 -> because f -> says f t -> ~ (exists seg d, f = FlAppNack seg d) ->
    ends because says over broken (Some 1) (str "ERROR: " ++ t ++ LF).
