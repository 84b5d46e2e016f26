(** The documented option ranges: the error messages and help texts of the tools, and
    manpages/ndn*.rst. *)
From Verif Require Import Base OptionsModel.
From Coq Require Import String.
Local Open Scope Z_scope.

(** ndnputchunks.rst L36-43 *)
Definition convention_documented (s : string) : Prop :=
  In s [""; "marker"; "m"; "1"; "typed"; "t"; "2"]%string.

(** --lifetime, --retries, --pipeline-size, --rto-k, --min-rto, --max-rto as in the messages
    "cannot be negative", "must be between", "cannot be smaller"; --pipeline-type: "valid
    values are: 'fixed', 'aimd', 'cubic'"; "cannot be quiet and verbose at the same time" *)
Definition cat_documented (o : cat_opts) : Prop :=
  cc_prefix o <> ""%string /\ convention_documented (cc_nameConv o) /\
  0 <= cc_lifetime o /\ -1 <= cc_retries o <= 1024 /\ ~ (cc_quiet o = true /\ cc_verbose o = true) /\
  1 <= cc_size o <= 1024 /\ 0 <= cc_rtoK o /\ 0 <= cc_minRto o <= cc_maxRto o /\
  In (cc_type o) ["fixed"; "aimd"; "cubic"]%string.

(** at most 292 years *)
Definition rto_representable (o : cat_opts) : Prop := Z.abs (cc_minRto o) <= 9223372036854 /\ Z.abs (cc_maxRto o) <= 9223372036854.

(** the log files that were asked for can be created; without effect for the fixed pipeline *)
Definition logs_writable (writable : string -> bool) (o : cat_opts) : Prop :=
  cc_type o = "fixed"%string \/
  ((cc_logCwnd o = ""%string \/ writable (cc_logCwnd o) = true) /\ (cc_logRtt o = ""%string \/ writable (cc_logRtt o) = true)).

Definition put_documented (signing_ok : string -> bool) (o : put_opts) : Prop :=
  pc_prefix o <> ""%string /\ convention_documented (pc_nameConv o) /\
  0 <= pc_freshness o /\ 1 <= pc_size o <= 8800 /\ signing_ok (pc_signing o) = true /\
  ~ (pc_quiet o = true /\ pc_verbose o = true).

(** ndnping.rst: "minimum 1ms"; messages "must be positive", "Unacceptable client
    identifier"; the help text calls the timeout a number of milliseconds *)
Definition alnum (c : Ascii.ascii) : Prop :=
  In c (list_ascii_of_string "0123456789ABCDEFGHIJKLMNOPQRSTUVWXYZabcdefghijklmnopqrstuvwxyz").
Definition ping_documented (o : ping_opts) : Prop :=
  gc_prefix o <> None /\ 1 <= gc_interval o /\ 0 <= gc_timeout o /\
  (forall n, gc_count o = Some n -> 1 <= n) /\
  (forall i, gc_identifier o = Some i -> i <> ""%string /\ Forall alnum (list_ascii_of_string i)).

Definition server_documented (o : server_opts) : Prop :=
  sc_prefix o <> ""%string /\ 0 <= sc_freshness o /\ 0 <= sc_satisfy o /\ 0 <= sc_size o.

Definition peek_documented (name_ok base64_ok readable : string -> bool) (o : peek_opts) : Prop :=
  (exists n, kc_name o = Some n /\ name_ok n = true) /\ (forall n, In n (kc_hints o) -> name_ok n = true) /\ (forall t, kc_timeout o = Some t -> 0 <= t) /\ 0 <= kc_lifetime o /\
  (forall h, kc_hopLimit o = Some h -> 0 <= h <= 255) /\
  (kc_params o = None \/ kc_paramsFile o = None) /\
  (forall s, kc_params o = Some s -> base64_ok s = true) /\
  (forall f, kc_paramsFile o = Some f -> readable f = true).

(** messages "invalid name", "name cannot have zero components", "conflicting
    '--unsolicited' and '--timeout' options specified", "cannot be negative" *)
Definition poke_documented (name_len : string -> option nat) (signing_ok : string -> bool) (o : poke_opts) : Prop :=
  (exists s n, oc_name o = Some s /\ name_len s = Some n /\ n <> O) /\
  0 <= oc_freshness o /\ signing_ok (oc_signing o) = true /\
  (forall t, oc_timeout o = Some t -> oc_unsolicited o = false /\ 0 <= t).

Definition dump_documented (regex_ok : string -> bool) (o : dump_opts) : Prop :=
  (dc_interface o = None \/ dc_read o = None) /\ (forall f, dc_filter o = Some f -> regex_ok f = true).

Definition dissect_documented (readable : string -> bool) (o : option string) : Prop :=
  forall f, o = Some f -> f = "-"%string \/ readable f = true.

(** the pipeline is the requested one and gets the requested parameters *)
From Verif Require Import PipelineBase FixedModel AdaptiveModel Double WindowModel.
Definition job_matches (o : cat_opts) (j : cat_job) : Prop :=
  let common (C : aconfig) := c_maxRetries C = cc_retries o /\ c_ignoreCongMarks C = cc_ignoreMarks o /\ c_disableCwa C = cc_disableCwa o in
  match j with
  | JFixed C => cc_type o = "fixed"%string /\ Z.of_nat (xc_size C) = cc_size o /\ xc_maxRetries C = cc_retries o
  | JAimd C a => cc_type o = "aimd"%string /\ common C /\ ai_initCwnd a = cc_initCwnd o /\ ai_initSsthresh a = cc_initSsthresh o /\
                 ai_step a = cc_aiStep o /\ ai_mdCoef a = cc_mdCoef o /\ ai_reset a = cc_resetCwnd o
  | JCubic C a => cc_type o = "cubic"%string /\ common C /\ cu_initCwnd a = cc_initCwnd o /\ cu_initSsthresh a = cc_initSsthresh o /\
                  cu_beta a = cc_cubicBeta o /\ cu_fastConv a = cc_fastConv o
  end.
