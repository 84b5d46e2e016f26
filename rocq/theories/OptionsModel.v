(** Model of the option handling in the main functions of ndncatchunks, ndnputchunks,
    ndnping, ndnpingserver, ndnpeek, ndnpoke, ndndump and ndn-dissect.

    Environment (Boost.Program_options, ndn-cxx, the file system):
    - the command line has been split into typed values, see [cmdline]; numeric values are
      those of the C++ type, and options with a default value are always present;
    - whether a text is a valid name, signing information, regular expression, base64 text,
      or a file that can be opened is decided by the parameters of each function.
    Not modelled: usage and error messages; flags without influence on the control flow. *)
From Verif Require Import Base PipelineBase FixedModel AdaptiveModel CatchunksModel Double WindowModel.
From Coq Require Import String.
Local Open Scope Z_scope.

(** What becomes of the process: it ends with a status, goes on to its actual job, ends by
    std::terminate because of an uncaught exception, or has undefined behaviour. *)
Inductive outcome (J : Type) :=
| Exit (status : Z)
| Proceed (j : J)
| Terminate
| Undefined.
Arguments Exit {J}. Arguments Proceed {J}. Arguments Terminate {J}. Arguments Undefined {J}.

(** Result of po::store and po::notify: the values, together with the presence of --help
    and --version; or an exception. *)
Inductive cmdline (A : Type) :=
| Parsed (help version : bool) (a : A)
| PoError                        (* po::error: unknown option, malformed number, ... *)
| AnyCast.                       (* boost::bad_any_cast *)
Arguments Parsed {A}. Arguments PoError {A}. Arguments AnyCast {A}.

Definition empty (s : string) : bool := String.eqb s "".

(** the checks of one main function, in order: the first that applies decides *)
Fixpoint checks {J} (l : list (bool * outcome J)) (last : outcome J) : outcome J :=
  match l with
  | [] => last
  | (c, o) :: l => if c then o else checks l last
  end.

(** chunks/catchunks/main.cpp L183-192, chunks/putchunks/main.cpp L118-127: is the naming
    convention rejected? *)
Definition badConvention (s : string) : bool :=
  if String.eqb s "marker" || String.eqb s "m" || String.eqb s "1" then false
  else if String.eqb s "typed" || String.eqb s "t" || String.eqb s "2" then false
  else negb (empty s).

(** the value range of std::chrono::nanoseconds::rep *)
Definition fits64 (z : Z) : bool := (-9223372036854775808 <=? z) && (z <=? 9223372036854775807).

(** * ndncatchunks *)
Record cat_opts := CatOpts {
  cc_prefix : string; cc_nameConv : string; cc_lifetime : Z; cc_retries : Z;
  cc_quiet : bool; cc_verbose : bool; cc_type : string; cc_size : Z;
  cc_ignoreMarks : bool; cc_disableCwa : bool;
  cc_rtoK : Z; cc_minRto : Z; cc_maxRto : Z;          (* RTO bounds in milliseconds *)
  cc_initCwnd : f64; cc_initSsthresh : f64;
  cc_aiStep : f64; cc_mdCoef : f64; cc_resetCwnd : bool;
  cc_cubicBeta : f64; cc_fastConv : bool;
  cc_logCwnd : string; cc_logRtt : string
}.

(** the pipeline that main.cpp L241-288 creates *)
Inductive cat_job :=
| JFixed (C : xconfig)
| JAimd (C : aconfig) (o : aimd_opts)
| JCubic (C : aconfig) (o : cubic_opts).

(** chunks/catchunks/main.cpp L152-290.  L220, L226: the assignments convert milliseconds
    to nanoseconds; a product that does not fit is undefined.  L234: an invalid name throws
    (caught at L305).  Not modelled: failure to create the Face (L233), and the assertions
    of ndn-cxx's RttEstimator about --rto-alpha and --rto-beta (L261). *)
Definition cat_main (name_ok writable : string -> bool) (c : cmdline cat_opts) : outcome cat_job :=
  match c with
  | PoError => Exit 2                                                        (* L157-160 *)
  | AnyCast => Exit 2                                                        (* L161-164 *)
  | Parsed help version o =>
    let A := AConfig (cc_retries o) (cc_ignoreMarks o) (cc_disableCwa o) d_appnack in
    checks [
      (help, Exit 0);                                                        (* L166-170 *)
      (version, Exit 0);                                                     (* L172-175 *)
      (empty (cc_prefix o), Exit 2);                                         (* L177-181 *)
      (badConvention (cc_nameConv o), Exit 2);                               (* L183-192 *)
      (cc_lifetime o <? 0, Exit 2);                                          (* L194-198 *)
      ((cc_retries o <? -1) || (1024 <? cc_retries o), Exit 2);              (* L200-203 *)
      (cc_quiet o && cc_verbose o, Exit 2);                                  (* L205-208 *)
      ((cc_size o <? 1) || (1024 <? cc_size o), Exit 2);                     (* L210-213 *)
      (cc_rtoK o <? 0, Exit 2);                                              (* L215-218 *)
      (negb (fits64 (cc_minRto o * 1000000)), Undefined);                    (* L220 *)
      (cc_minRto o * 1000000 <? 0, Exit 2);                                  (* L221-224 *)
      (negb (fits64 (cc_maxRto o * 1000000)), Undefined);                    (* L226 *)
      (cc_maxRto o * 1000000 <? cc_minRto o * 1000000, Exit 2);              (* L227-230 *)
      (negb (name_ok (cc_prefix o)), Exit 1)                                 (* L234, L305 *)
    ] (if String.eqb (cc_type o) "fixed" then                                (* L241-243 *)
         Proceed (JFixed (XConfig (Z.to_nat (cc_size o)) (cc_retries o) d_appnack))
       else if String.eqb (cc_type o) "aimd" || String.eqb (cc_type o) "cubic" then
         checks [
           (negb (empty (cc_logCwnd o)) && negb (writable (cc_logCwnd o)), Exit 4);   (* L267-273 *)
           (negb (empty (cc_logRtt o)) && negb (writable (cc_logRtt o)), Exit 4)      (* L274-280 *)
         ] (if String.eqb (cc_type o) "aimd"                                          (* L258-264 *)
            then Proceed (JAimd A (AimdOpts (cc_initCwnd o) (cc_initSsthresh o) (cc_aiStep o) (cc_mdCoef o) (cc_resetCwnd o)))
            else Proceed (JCubic A (CubicOpts (cc_initCwnd o) (cc_initSsthresh o) (cc_cubicBeta o) (cc_fastConv o))))
       else Exit 2)                                                          (* L285-288 *)
  end.

(** the history of the pipeline right after its start (consumer.cpp L48-52), with any RTT
    estimator and any cube root and cube functions *)
Definition cat_start {R} (r0 : R) (srtt rto : R -> Z) (sample : Z -> Z -> R -> R) (backoff : R -> R) (cbrt pow3 : f64 -> f64)
  (j : cat_job) : list pobs :=
  match j with
  | JFixed C => x_history (x_run C [])
  | JAimd C o => a_history (a_run (aimd_policy o r0 rto sample backoff) C [])
  | JCubic C o => a_history (a_run (cubic_policy cbrt pow3 o r0 srtt rto sample backoff) C [])
  end.

(** * ndnputchunks *)
Record put_opts := PutOpts {
  pc_prefix : string; pc_nameConv : string; pc_freshness : Z; pc_size : Z; pc_signing : string;
  pc_quiet : bool; pc_verbose : bool
}.
(** chunks/putchunks/main.cpp L88-162; ndn::MAX_NDN_PACKET_SIZE is 8800.  The job: freshness
    period and segment size. *)
Definition put_main (name_ok signing_ok : string -> bool) (c : cmdline put_opts) : outcome (Z * Z) :=
  match c with
  | PoError => Exit 2                                                        (* L94-97 *)
  | AnyCast => Exit 2                                                        (* L98-101 *)
  | Parsed help version o =>
    checks [
      (help, Exit 0);                                                        (* L103-106 *)
      (version, Exit 0);                                                     (* L108-111 *)
      (empty (pc_prefix o), Exit 2);                                         (* L113-116 *)
      (badConvention (pc_nameConv o), Exit 2);                               (* L118-127 *)
      (pc_freshness o <? 0, Exit 2);                                         (* L129-133 *)
      ((pc_size o <? 1) || (8800 <? pc_size o), Exit 2);                     (* L135-138 *)
      (negb (signing_ok (pc_signing o)), Exit 2);                            (* L140-146 *)
      (pc_quiet o && pc_verbose o, Exit 2);                                  (* L148-151 *)
      (negb (name_ok (pc_prefix o)), Exit 1)                                 (* L156, L159-162 *)
    ] (Proceed (pc_freshness o, pc_size o))
  end.

(** * ndnping *)
Record ping_opts := PingOpts {
  gc_prefix : option string; gc_interval : Z; gc_timeout : Z; gc_count : option Z;
  gc_identifier : option string
}.
(** isalnum in the C locale.  It is undefined for a negative argument, that is for the
    characters 128-255 if char is signed; we take false for these. *)
Definition isalnum (c : Ascii.ascii) : bool :=
  let n := Ascii.N_of_ascii c in
  ((48 <=? n) && (n <=? 57))%N || ((65 <=? n) && (n <=? 90))%N || ((97 <=? n) && (n <=? 122))%N.
Fixpoint all_alnum (s : string) : bool :=
  match s with EmptyString => true | String c s => isalnum c && all_alnum s end.

(** ping/client/main.cpp L132-238.  Only po::error is caught (L234-237), so that the
    exceptions of the Name constructor (L190) and bad_any_cast are not.  usage() exits with
    status 2 (L128), also for --help.  A negative timeout passes the checks; the first
    Interest::setInterestLifetime (ping.cpp L60) throws, and run() returns 2 (main.cpp
    L57-65).  The job: interval, timeout, and number of pings. *)
Definition ping_main (name_ok : string -> bool) (c : cmdline ping_opts) : outcome (Z * Z * Z) :=
  match c with
  | PoError => Exit 2                                                        (* L234-237 *)
  | AnyCast => Terminate
  | Parsed help version o =>
    checks [
      (help, Exit 2);                                                        (* L180-182 *)
      (version, Exit 0);                                                     (* L184-187 *)
      (match gc_prefix o with Some p => negb (name_ok p) | None => false end, Terminate);  (* L189-191 *)
      (match gc_prefix o with Some _ => false | None => true end, Exit 2);   (* L192-195 *)
      (gc_interval o <? 1, Exit 2);                                          (* L197-201 *)
      (match gc_count o with Some n => n <=? 0 | None => false end, Exit 2); (* L205-210 *)
      (match gc_identifier o with Some i => empty i || negb (all_alnum i) | None => false end, Exit 2);  (* L216-222 *)
      (gc_timeout o <? 0, Exit 2)
    ] (Proceed (gc_interval o, gc_timeout o, match gc_count o with Some n => n | None => -1 end))
  end.

(** * ndnpingserver *)
Record server_opts := ServerOpts { sc_prefix : string; sc_freshness : Z; sc_satisfy : Z; sc_size : Z }.
(** ping/server/main.cpp L100-187; the conversion of the prefix to a Name (L167) is not in a
    try block.  The job: freshness period, number of pings, and payload size. *)
Definition server_main (name_ok : string -> bool) (c : cmdline server_opts) : outcome (Z * Z * Z) :=
  match c with
  | PoError => Exit 2                                                        (* L141-145 *)
  | AnyCast => Exit 2                                                        (* L146-150 *)
  | Parsed help version o =>
    checks [
      (help, Exit 0);                                                        (* L152-155 *)
      (version, Exit 0);                                                     (* L157-160 *)
      (empty (sc_prefix o), Exit 2);                                         (* L162-166 *)
      (negb (name_ok (sc_prefix o)), Terminate);                             (* L167 *)
      (sc_freshness o <? 0, Exit 2);                                         (* L169-173 *)
      (sc_satisfy o <? 0, Exit 2);                                           (* L175-178 *)
      (sc_size o <? 0, Exit 2)                                               (* L181-184 *)
    ] (Proceed (sc_freshness o, sc_satisfy o, sc_size o))
  end.

(** * ndnpeek *)
Record peek_opts := PeekOpts {
  kc_name : option string; kc_hints : list string; kc_timeout : option Z; kc_lifetime : Z; kc_hopLimit : option Z;
  kc_params : option string; kc_paramsFile : option string
}.
(** where the ApplicationParameters come from *)
Inductive params_from := NoParams | FromText (s : string) | FromFile (s : string).
(** peek/ndnpeek/main.cpp L111-189; [base64_ok]: io::loadBuffer accepts the text;
    [readable]: the file can be opened and read.  The names are converted by po::store (L113)
    with the validator of core/program-options-ext.cpp L30-43, which turns Name::Error (the
    exception of the constructor of ndn::Name, [name_ok]) into a po::error.  The job: timeout, InterestLifetime,
    HopLimit (cast to uint8_t, L152) and source of the parameters. *)
Definition peek_main (name_ok base64_ok readable : string -> bool) (c : cmdline peek_opts)
  : outcome (option Z * Z * option Z * params_from) :=
  match c with
  | PoError => Exit 2                                                        (* L116-119 *)
  | AnyCast => Terminate
  | Parsed help version o =>
    checks [
      (match kc_name o with Some n => negb (name_ok n) | None => false end, Exit 2);   (* L116-119 *)
      (negb (forallb name_ok (kc_hints o)), Exit 2);                         (* L116-119 *)
      (help, Exit 0);                                                        (* L121-124 *)
      (version, Exit 0);                                                     (* L126-129 *)
      (match kc_name o with Some _ => false | None => true end, Exit 2);     (* L131-135 *)
      (match kc_timeout o with Some t => t <? 0 | None => false end, Exit 2);          (* L137-143 *)
      (kc_lifetime o <? 0, Exit 2);                                          (* L145-149 *)
      (match kc_hopLimit o with Some h => (h <? 0) || (255 <? h) | None => false end, Exit 2);   (* L151-158 *)
      (match kc_params o, kc_paramsFile o with Some _, Some _ => true | _, _ => false end, Exit 2);    (* L160-164 *)
      (match kc_params o with Some s => negb (base64_ok s) | None => false end, Exit 2);     (* L165-172 *)
      (match kc_paramsFile o with Some f => negb (readable f) | None => false end, Exit 2)   (* L175-189 *)
    ] (Proceed (kc_timeout o, kc_lifetime o, option_map (fun h => h mod 256) (kc_hopLimit o),
                match kc_paramsFile o with
                | Some f => FromFile f
                | None => match kc_params o with Some s => FromText s | None => NoParams end
                end))
  end.

(** * ndnpoke *)
Record poke_opts := PokeOpts {
  oc_name : option string; oc_freshness : Z; oc_signing : string; oc_unsolicited : bool; oc_timeout : option Z
}.
(** peek/ndnpoke/main.cpp L90-157; [name_len]: the number of components of the name, None if
    the text is not a valid name.  The job: freshness period, unsolicited, timeout. *)
Definition poke_main (name_len : string -> option nat) (signing_ok : string -> bool) (c : cmdline poke_opts)
  : outcome (Z * bool * option Z) :=
  match c with
  | PoError => Exit 2                                                        (* L95-98 *)
  | AnyCast => Terminate
  | Parsed help version o =>
    checks [
      (help, Exit 0);                                                        (* L100-103 *)
      (version, Exit 0);                                                     (* L105-108 *)
      (match oc_name o with None => true | Some _ => false end, Exit 2);     (* L110-114 *)
      (match oc_name o with Some s => match name_len s with None => true | Some _ => false end | None => false end, Exit 2);   (* L116-122 *)
      (match oc_name o with Some s => match name_len s with Some O => true | _ => false end | None => false end, Exit 2);      (* L124-127 *)
      (oc_freshness o <? 0, Exit 2);                                         (* L129-133 *)
      (negb (signing_ok (oc_signing o)), Exit 2);                            (* L135-141 *)
      (match oc_timeout o with Some _ => oc_unsolicited o | None => false end, Exit 2);   (* L143-147 *)
      (match oc_timeout o with Some t => t <? 0 | None => false end, Exit 2) (* L148-152 *)
    ] (Proceed (oc_freshness o, oc_unsolicited o, oc_timeout o))
  end.

(** * ndndump *)
Record dump_opts := DumpOpts { dc_interface : option string; dc_read : option string; dc_filter : option string }.
(** dump/main.cpp L83-146; the job: interface, input file (empty if not given, L50-54) and
    filter.  Failures of NdnDump::run are not part of this function. *)
Definition dump_main (regex_ok : string -> bool) (c : cmdline dump_opts) : outcome (string * string * option string) :=
  match c with
  | PoError => Exit 2                                                        (* L88-92 *)
  | AnyCast => Exit 2                                                        (* L93-97 *)
  | Parsed help version o =>
    let text x := match x with Some s => s | None => ""%string end in
    checks [
      (help, Exit 0);                                                        (* L99-102 *)
      (version, Exit 0);                                                     (* L104-108 *)
      (match dc_interface o, dc_read o with Some _, Some _ => true | _, _ => false end, Exit 2);  (* L110-114 *)
      (match dc_filter o with Some f => negb (regex_ok f) | None => false end, Exit 2)            (* L116-124 *)
    ] (Proceed (text (dc_interface o), text (dc_read o), dc_filter o))
  end.

(** * ndn-dissect *)
(** dissect/main.cpp L64-101: the option is the input file; the job: the file to read, None
    for the standard input *)
Definition dissect_main (readable : string -> bool) (c : cmdline (option string)) : outcome (option string) :=
  match c with
  | PoError => Exit 2
  | AnyCast => Terminate
  | Parsed help version o =>
    checks [
      (help, Exit 0);
      (version, Exit 0);
      (match o with Some f => negb (String.eqb f "-") && negb (readable f) | None => false end, Exit 3)
    ] (Proceed (match o with Some f => if String.eqb f "-" then None else Some f | None => None end))
  end.
