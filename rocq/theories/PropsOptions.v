(** Properties of the option handling and of the summary of ndncatchunks: C46-C49.  The
    documented ranges are in OptionsSpec.v. *)
From Verif Require Import Base PipelineBase FixedModel AdaptiveModel DumpModel DumpSpec Double WindowModel OptionsModel OptionsSpec OptionsProofs OptionsTheorems
  ThroughputModel ThroughputProofs.
From Coq Require Import String Reals Lra.
From Coq Require Import List.
From Flocq Require Import Core BinarySingleNaN.
Import ListNotations.
Local Open Scope Z_scope.
Local Open Scope list_scope.

(** * C46 ndncatchunks *)

(** If the name is valid, the log files can be written and the RTO bounds are below 292
    years, ndncatchunks proceeds with the given parameters if the options are in the
    documented ranges, and exits with status 2 otherwise. *)
Theorem C46_accepts_partial :
  forall (name_ok writable : string -> bool) (o : cat_opts),
    cat_documented o -> rto_representable o -> name_ok (cc_prefix o) = true -> logs_writable writable o ->
    exists j, cat_main name_ok writable (Parsed false false o) = Proceed j /\ job_matches o j.
Proof. exact cat_accepts. Qed.
Print Assumptions C46_accepts_partial.

Theorem C46_rejects_partial :
  forall (name_ok writable : string -> bool) (o : cat_opts),
    ~ cat_documented o -> rto_representable o -> name_ok (cc_prefix o) = true -> logs_writable writable o ->
    cat_main name_ok writable (Parsed false false o) = Exit 2.
Proof. exact cat_not_ok. Qed.
Print Assumptions C46_rejects_partial.

(** The other statuses have other reasons: 0 help or version, 1 an invalid name, 4 a log
    file. *)
Theorem C46_statuses :
  forall (name_ok writable : string -> bool) (c : cmdline cat_opts) (n : Z),
    cat_main name_ok writable c = Exit n ->
    (n = 0 /\ exists o h v, c = Parsed h v o /\ (h = true \/ v = true)) \/
    (n = 1 /\ exists h v o, c = Parsed h v o /\ name_ok (cc_prefix o) = false) \/
    n = 2 \/
    (n = 4 /\ exists h v o, c = Parsed h v o /\ ~ logs_writable writable o).
Proof. exact cat_exit_codes. Qed.
Print Assumptions C46_statuses.

(** the defaults, with a name *)
Definition exCat (type : string) (maxRto : Z) (cwnd : f64) : cat_opts :=
  CatOpts "/A" "" 4000 15 false false type 1 false false 8 200 maxRto cwnd DBL_MAX (f_of_Z 1) (f_me 1 (-1)) false (f_me 7 (-3)) false "" "".
Example C46_case : cat_documented (exCat "cubic" 60000 (f_of_Z 2)) /\ rto_representable (exCat "cubic" 60000 (f_of_Z 2)) /\
  logs_writable (fun _ => false) (exCat "cubic" 60000 (f_of_Z 2)) /\ ~ cat_documented (exCat "cubic" 199 (f_of_Z 2)).
Proof.
  unfold cat_documented, rto_representable, logs_writable, convention_documented. cbn.
  repeat split; try lia; try discriminate; auto.
Qed.

(** Without the condition on the RTO bounds the statement is false: 10^13 milliseconds are
    not negative, but their conversion to nanoseconds overflows. *)
Theorem C46_overflow_refuted :
  exists o, cat_documented o /\ forall name_ok writable, cat_main name_ok writable (Parsed false false o) = Undefined.
Proof.
  exists (exCat "cubic" 10000000000000 (f_of_Z 2)). split; [|intros; vm_compute; reflexivity].
  unfold cat_documented, convention_documented. cbn. repeat split; try lia; try discriminate; auto.
Qed.
Print Assumptions C46_overflow_refuted.

(** * C47 Accepted options make progress *)

(** The pipeline of an accepted command line starts with an Interest for segment 0 iff it is
    the fixed one, or the initial window is a number from 1 to below 2^63; for every RTT
    estimator and every implementation of std::cbrt and std::pow. *)
Theorem C47_first_interest_partial :
  forall (R : Type) (r0 : R) srtt rto sample backoff cbrt pow3 (name_ok writable : string -> bool) (help version : bool) (o : cat_opts) (j : cat_job),
    cat_main name_ok writable (Parsed help version o) = Proceed j ->
    (In (OInterest 0 false) (cat_start r0 srtt rto sample backoff cbrt pow3 j) <->
     cc_type o = "fixed"%string \/ (is_finite (cc_initCwnd o) = true /\ (1 <= B2R (cc_initCwnd o) < bpow radix2 63)%R)).
Proof. exact @cat_first_interest. Qed.
Print Assumptions C47_first_interest_partial.

(** It then sends exactly as many Interests as requested, for the first segments in order. *)
Theorem C47_first_burst :
  forall (R : Type) (r0 : R) srtt rto sample backoff cbrt pow3 (name_ok writable : string -> bool) (help version : bool) (o : cat_opts) (j : cat_job),
    cat_main name_ok writable (Parsed help version o) = Proceed j ->
    cc_type o = "fixed"%string \/ (is_finite (cc_initCwnd o) = true /\ (1 <= B2R (cc_initCwnd o) < bpow radix2 63)%R) ->
    exists n, cat_start r0 srtt rto sample backoff cbrt pow3 j = map (fun i => OInterest (N.of_nat i) false) (seq 0 n) /\
      (cc_type o = "fixed"%string -> Z.of_nat n = cc_size o) /\
      (cc_type o <> "fixed"%string -> (IZR (Z.of_nat n) <= B2R (cc_initCwnd o) < IZR (Z.of_nat n) + 1)%R).
Proof. exact @cat_burst. Qed.
Print Assumptions C47_first_burst.

Example C47_case : exists j, cat_main (fun _ => true) (fun _ => true) (Parsed false false (exCat "cubic" 60000 (f_of_Z 2))) = Proceed j /\
  is_finite (cc_initCwnd (exCat "cubic" 60000 (f_of_Z 2))) = true /\ B2R (cc_initCwnd (exCat "cubic" 60000 (f_of_Z 2))) = 2%R /\
  cat_start tt (fun _ => 0) (fun _ => 0) (fun _ _ r => r) (fun r => r) (fun x => x) (fun x => x) j = [OInterest 0 false; OInterest 1 false].
Proof.
  eexists. split; [reflexivity|]. destruct (f_of_Z_exact 2) as [A B]; [lia|]. split; [exact A|]. split; [exact B|]. vm_compute. reflexivity.
Qed.

(** The statement is false in general: --init-cwnd 0.5 is in the documented range, and
    nothing is ever sent. *)
Theorem C47_refuted :
  exists o j, cat_documented o /\ cat_main (fun _ => true) (fun _ => true) (Parsed false false o) = Proceed j /\
    forall (R : Type) (r0 : R) srtt rto sample backoff cbrt pow3, cat_start r0 srtt rto sample backoff cbrt pow3 j = [].
Proof.
  exists (exCat "aimd" 60000 (f_me 1 (-1))). eexists. split; [|split; [reflexivity|intros; vm_compute; reflexivity]].
  unfold cat_documented, convention_documented. cbn. repeat split; try lia; try discriminate; auto.
Qed.
Print Assumptions C47_refuted.

(** * C48 The other tools *)

(** With a valid name each tool proceeds with the given values if the options are in the
    documented ranges, and exits with status 2 otherwise (ndn-dissect: 3). *)
Theorem C48_ndnputchunks_partial :
  forall (name_ok signing_ok : string -> bool) (o : put_opts), name_ok (pc_prefix o) = true ->
    (put_documented signing_ok o -> put_main name_ok signing_ok (Parsed false false o) = Proceed (pc_freshness o, pc_size o)) /\
    (~ put_documented signing_ok o -> put_main name_ok signing_ok (Parsed false false o) = Exit 2).
Proof. intros n s o H. split; intros D; [exact (put_ok n s o D H)|exact (put_not_ok n s o D H)]. Qed.
Print Assumptions C48_ndnputchunks_partial.

Theorem C48_ndnping_partial :
  forall (name_ok : string -> bool) (o : ping_opts), (forall p, gc_prefix o = Some p -> name_ok p = true) ->
    (ping_documented o -> ping_main name_ok (Parsed false false o) =
       Proceed (gc_interval o, gc_timeout o, match gc_count o with Some n => n | None => -1 end)) /\
    (~ ping_documented o -> ping_main name_ok (Parsed false false o) = Exit 2).
Proof. intros n o H. split; intros D; [exact (ping_ok n o D H)|exact (ping_not_ok n o D H)]. Qed.
Print Assumptions C48_ndnping_partial.

Theorem C48_ndnpingserver_partial :
  forall (name_ok : string -> bool) (o : server_opts), name_ok (sc_prefix o) = true ->
    (server_documented o -> server_main name_ok (Parsed false false o) = Proceed (sc_freshness o, sc_satisfy o, sc_size o)) /\
    (~ server_documented o -> server_main name_ok (Parsed false false o) = Exit 2).
Proof. intros n o H. split; intros D; [exact (server_ok n o D H)|exact (server_not_ok n o D H)]. Qed.
Print Assumptions C48_ndnpingserver_partial.

Theorem C48_ndnpeek :
  forall (name_ok base64_ok readable : string -> bool) (o : peek_opts),
    (peek_documented name_ok base64_ok readable o -> peek_main name_ok base64_ok readable (Parsed false false o) =
       Proceed (kc_timeout o, kc_lifetime o, kc_hopLimit o,
                match kc_params o, kc_paramsFile o with
                | Some s, _ => FromText s
                | None, Some f => FromFile f
                | None, None => NoParams
                end)) /\
    (~ peek_documented name_ok base64_ok readable o -> peek_main name_ok base64_ok readable (Parsed false false o) = Exit 2).
Proof. intros n b r o. split; [exact (peek_ok n b r o)|exact (peek_not_ok n b r o)]. Qed.
Print Assumptions C48_ndnpeek.

Theorem C48_ndnpoke :
  forall (name_len : string -> option nat) (signing_ok : string -> bool) (o : poke_opts),
    (poke_documented name_len signing_ok o ->
     poke_main name_len signing_ok (Parsed false false o) = Proceed (oc_freshness o, oc_unsolicited o, oc_timeout o)) /\
    (~ poke_documented name_len signing_ok o -> poke_main name_len signing_ok (Parsed false false o) = Exit 2).
Proof. intros n s o. split; [exact (poke_ok n s o)|exact (poke_not_ok n s o)]. Qed.
Print Assumptions C48_ndnpoke.

Theorem C48_ndndump :
  forall (regex_ok : string -> bool) (o : dump_opts),
    (dump_documented regex_ok o ->
     exists i r, dump_main regex_ok (Parsed false false o) = Proceed (i, r, dc_filter o) /\
       (forall s, dc_interface o = Some s -> i = s) /\ (dc_interface o = None -> i = ""%string) /\
       (forall s, dc_read o = Some s -> r = s) /\ (dc_read o = None -> r = ""%string)) /\
    (~ dump_documented regex_ok o -> dump_main regex_ok (Parsed false false o) = Exit 2).
Proof. intros r o. split; [exact (dump_ok r o)|exact (dump_not_ok r o)]. Qed.
Print Assumptions C48_ndndump.

Theorem C48_ndn_dissect :
  forall (readable : string -> bool) (o : option string),
    (dissect_documented readable o ->
     dissect_main readable (Parsed false false o) = Proceed (match o with Some f => if String.eqb f "-" then None else Some f | None => None end)) /\
    (~ dissect_documented readable o -> dissect_main readable (Parsed false false o) = Exit 3).
Proof. intros r o. split; [exact (dissect_ok r o)|exact (dissect_not_ok r o)]. Qed.
Print Assumptions C48_ndn_dissect.

Example C48_case :
  put_documented (fun s => String.eqb s "") (PutOpts "/A" "t" 0 8800 "" false true) /\
  ~ put_documented (fun s => String.eqb s "") (PutOpts "/A" "t" 0 8801 "" false true) /\
  ping_documented (PingOpts (Some "/A"%string) 1 0 (Some 1) (Some "x9"%string)) /\
  ~ ping_documented (PingOpts (Some "/A"%string) 0 0 (Some 1) (Some "x9"%string)) /\
  server_documented (ServerOpts "/A" 1000 0 0) /\
  peek_documented (fun _ => true) (fun _ => true) (fun _ => false) (PeekOpts (Some "/A"%string) ["/B"%string] (Some 5) 0 (Some 255) (Some "AA=="%string) None) /\
  poke_documented (fun _ => Some 1%nat) (fun _ => true) (PokeOpts (Some "/A"%string) 0 "" false (Some 3)) /\
  dump_documented (fun _ => true) (DumpOpts None (Some "f"%string) (Some ".*"%string)) /\
  dissect_documented (fun _ => false) (Some "-"%string).
Proof.
  unfold put_documented, ping_documented, server_documented, peek_documented, poke_documented, dump_documented, dissect_documented, convention_documented.
  cbn [pc_prefix pc_nameConv pc_freshness pc_size pc_signing pc_quiet pc_verbose gc_prefix gc_interval gc_timeout gc_count gc_identifier
       sc_prefix sc_freshness sc_satisfy sc_size kc_name kc_hints kc_timeout kc_lifetime kc_hopLimit kc_params kc_paramsFile
       oc_name oc_freshness oc_signing oc_unsolicited oc_timeout dc_interface dc_read dc_filter].
  split. { repeat apply conj; first [lia|discriminate|reflexivity|cbn; tauto]. }
  split. { intros (_ & _ & _ & H & _). lia. }
  split.
  { split; [discriminate|]. split; [lia|]. split; [lia|]. split; [intros n H; injection H as <-; lia|]. intros i H. injection H as <-.
    split; [discriminate|]. repeat constructor; unfold alnum; vm_compute; tauto. }
  split. { intros (_ & H & _). lia. }
  split. { repeat apply conj; try lia; discriminate. }
  split. { repeat apply conj; first [lia|reflexivity|now exists "/A"%string|intros ? _; reflexivity|now right|intros ? H; first [discriminate H|injection H as <-; first [reflexivity|lia]]]. }
  split. { split; [exists "/A"%string, 1%nat; auto|]. split; [lia|]. split; [reflexivity|]. intros t H. injection H as <-. split; [reflexivity|lia]. }
  split; [auto|]. intros f H. injection H as <-. now left.
Qed.

(** A malformed name is not reported with status 2: ndnping and ndnpingserver end with an
    uncaught exception, ndnputchunks with status 1.  And ndnping --help does not
    exit with status 0. *)
Theorem C48_malformed_name_refuted :
  (exists o, ping_documented o /\ ping_main (fun _ => false) (Parsed false false o) = Terminate) /\
  (exists o, server_documented o /\ server_main (fun _ => false) (Parsed false false o) = Terminate) /\
  (exists o, put_documented (fun _ => true) o /\ put_main (fun _ => false) (fun _ => true) (Parsed false false o) = Exit 1) /\
  (forall n version o, ping_main n (Parsed true version o) = Exit 2).
Proof.
  split; [|split; [|split]].
  - exists (PingOpts (Some "/.."%string) 1000 4000 None None).
    split; [repeat split; cbn; try lia; discriminate|reflexivity].
  - exists (ServerOpts "/.." 1000 0 0). split; [repeat split; cbn; try lia; discriminate|reflexivity].
  - exists (PutOpts "/.." "" 10000 8000 "" false false). split; [|reflexivity].
    unfold put_documented, convention_documented. cbn. repeat split; try lia; try discriminate; auto.
  - reflexivity.
Qed.
Print Assumptions C48_malformed_name_refuted.

(** * C49 Throughput formatting *)

(** The text is a decimal fraction n / 10^6 and a unit of 1000^p bit/s.  It denotes the
    throughput up to half a unit of the last digit and a relative error of 5 * 2^-53; the
    number is at least 1 if the unit is larger than bit/s, and at most 1000 if it is
    smaller than Tbit/s. *)
Theorem C49_format_partial :
  forall (x : f64), is_finite x = true -> Bsign x = false ->
    exists t p n, formatThroughput x = t ++ nth p [str " bit/s"; str " kbit/s"; str " Mbit/s"; str " Gbit/s"; str " Tbit/s"] [] /\
      (p <= 4)%nat /\ fraction6 t n /\
      ((p < 4)%nat -> n <= 1000 * 1000000) /\ ((0 < p)%nat -> 1000000 <= n) /\
      (Rabs (IZR n / 1000000 * 1000 ^ p - B2R x) <= 1000 ^ p / 2000000 + B2R x * (5 * bpow radix2 (-53)))%R.
Proof. exact format_ok'. Qed.
Print Assumptions C49_format_partial.

Example C49_case : formatThroughput (f_of_Z 123456789) = str "123.456789 Mbit/s" /\
  is_finite (f_of_Z 123456789) = true /\ Bsign (f_of_Z 123456789) = false.
Proof. repeat split; vm_compute; reflexivity. Qed.

(** The printed number can be 1000 in the units below Tbit/s: the largest double below
    1000 rounds up when it is printed. *)
Theorem C49_below_1000_refuted :
  exists x, is_finite x = true /\ (0 <= B2R x < 1000)%R /\ formatThroughput x = str "1000.000000 bit/s".
Proof.
  exists (f_me 8796093022207999 (-43)).
  destruct (f_me_ok 8796093022207999 (-43)) as [A B].
  { unfold small. change (bpow radix2 (-43)) with (/ 8796093022208)%R. rewrite Rabs_pos_eq by lra.
    apply Rle_trans with (bpow radix2 10); [change (bpow radix2 10) with 1024%R; lra|apply bpow_le; lia]. }
  rewrite rnd_scaled in B by lia. split; [exact A|]. split; [|vm_compute; reflexivity].
  rewrite B. change (bpow radix2 (-43)) with (/ 8796093022208)%R. lra.
Qed.
Print Assumptions C49_below_1000_refuted.
