(** ndncatchunks and ndnputchunks as programs that talk to each other: C81. *)
From Verif Require Import Base BaseFacts TlvModel PipelineBase PipelineSpec ProgressSpec FetcherModel FixedModel FixedSpec FixedEndSpec AdaptiveModel AdaptiveEnd AdaptiveWitness
  WindowModel WindowTheorems CatchunksModel CatchunksSpec CatchunksProofs PutchunksModel PutchunksSpec DiscoverModel DiscoverSpec ExitModel Double DumpModel PingModel DecimalModel ChunksTextModel
  PeekRunModel CatMsgModel OptionsModel CatLinesSpec CatFailSpec CatRunModel CatTextSpec CatRunSpec ServeModel PutRunModel PutRunSpec
  TransferRunSpec CubicRunSpec CubicUpperSpec CubicPipeline TransferRunProofs TransferWitness TransferRunWitness PropsWindow PropsChunks.
From Coq Require Import String List Lia ZArith.
Import ListNotations.
Local Open Scope Z_scope.
Local Open Scope list_scope.

Section Environment.
Variable digest : packet -> component.
(** the environment of ndnputchunks, as in C80 *)
Variables (sign : packet -> list N * list N) (name_uri : name -> text) (comp_uri : component -> text) (interest_line : interest -> text)
  (packet_line : packet -> text) (put_usage put_version : text) (default_cv : convention) (parse_signing : text -> signing)
  (parse_prefix : text -> name + text) (start_error : option text) (load_error : name -> list N -> option text) (put_error : text).
(** the environment of ndncatchunks, as in C76 *)
Variables (uri : name -> text) (interest_text : name -> Z -> text) (packet_text : packet -> text) (data_text : N -> data -> text)
  (mark_text : data -> text) (component_text : component -> text) (metadata_error : packet -> text) (final_error : data -> text)
  (range_error : text) (usage help_text version_text : text) (ms_text elapsed : Z -> text).
Variables (parse_name : string -> text + name) (face_error : option text) (writable : string -> bool).
Variables (initial_rto backoff_factor : Z) (R : Type) (r0 : R) (srtt rto : R -> Z) (sample : Z -> Z -> R -> R) (backoff : R -> R)
  (rtts : R -> option (Z * Z * Z)) (cbrt pow3 : f64 -> f64) (cv : convention) (ns : Z).
Notation ndncatchunks := (catchunks_program uri interest_text packet_text data_text mark_text component_text metadata_error final_error range_error
  usage help_text version_text parse_name face_error writable ms_text initial_rto backoff_factor elapsed r0 srtt rto sample backoff rtts cbrt pow3 cv ns).
Notation ndnputchunks := (put_program digest sign name_uri comp_uri interest_line packet_line put_usage put_version default_cv parse_signing parse_prefix
  start_error load_error put_error).
Notation transfer := (CatRunSpec.transfer elapsed r0 srtt rto sample backoff rtts cbrt pow3 ns).
Notation main := (cat_main (fun s => match parse_name s with inl _ => false | inr _ => true end) writable).

(** ndnputchunks is given [input] and options that it accepts, and ndncatchunks its name, with any
    acceptable options.  If every Data that ndncatchunks gets has been sent by that ndnputchunks,
    whatever else happens to both programs, the standard output of ndncatchunks is at any time a
    prefix of [input]; if it exits with status 0, it is [input]. *)
Theorem C81_transfer :
  forall (pa : put_args) (pcv : convention) (pn : name) (now : N) (input : list N) (pes : list put_happens) (plain : name) (v : component),
  (now < 2 ^ 64)%N -> (N.of_nat (List.length input) + 1 < 2 ^ 64)%N -> encodable (plain ++ [v]) ->
  put_accepts default_cv parse_signing pa pcv -> parse_prefix (ua_prefix pa) = inl pn -> versioned pcv now pn plain v ->
  forall a n j des xes aes broken r,
    ndncatchunks (Cmd false false a) des xes aes broken = Some r ->
    parse_name (cc_prefix (ca_opts a)) = inr n -> fits_name plain v a n ->
    main (Parsed false false (ca_opts a)) = Proceed j ->
    ~ In XeCancel xes -> ~ In AeCancel aes ->
    forges_nothing digest (uo_sent (ndnputchunks (inr pa) now input pes)) cv a n des
      (d_run (DConfig (ca_noDiscovery a) (cc_retries (ca_opts a)) n) des) (fst (fst (transfer j xes aes))) ->
    is_prefix (rr_stdout r) input /\ (rr_status r = Some 0 -> rr_stdout r = input).
Proof.
  exact (both_programs digest sign name_uri comp_uri interest_line packet_line put_usage put_version default_cv parse_signing parse_prefix
      start_error load_error put_error uri interest_text packet_text data_text mark_text component_text metadata_error final_error range_error
      usage help_text version_text ms_text elapsed parse_name face_error writable initial_rto backoff_factor R r0 srtt rto sample backoff rtts cbrt pow3 cv ns).
Qed.

(** If moreover the discovery has found the version, the network refuses nothing, every segment is
    Nacked for congestion or lost no more often than --retries allows, and every Interest is
    eventually answered or expires, then ndncatchunks with the fixed pipeline writes [input] and
    exits with status 0. *)
Theorem C81_fixed_succeeds :
  forall (pa : put_args) (pcv : convention) (pn : name) (now : N) (input : list N) (plain : name) (v : component),
  (now < 2 ^ 64)%N -> (N.of_nat (List.length input) + 1 < 2 ^ 64)%N -> encodable (plain ++ [v]) ->
  put_accepts default_cv parse_signing pa pcv -> parse_prefix (ua_prefix pa) = inl pn -> versioned pcv now pn plain v ->
  forall a n des vname,
    acceptable parse_name face_error writable a n -> fits_name plain v a n ->
    let dh := d_run (DConfig (ca_noDiscovery a) (cc_retries (ca_opts a)) n) des in
    In (DoSuccess vname) dh ->
    forall (size : nat) (retries : Z) (f : nat -> xevent) (b : Z),
    main (Parsed false false (ca_opts a)) = Proceed (JFixed (XConfig size retries d_appnack)) ->
    let h m := x_history (x_run (XConfig size retries d_appnack) (xfirst m f)) in
    (forall m, exists pes, forges_nothing digest (uo_sent (ndnputchunks (inr pa) now input pes)) cv a n des dh (h m)) ->
    (forall m seg reason, ~ refused (h m) seg reason) ->
    (forall m seg, count (nack_for seg) (h m) <= b) -> (forall m seg, count (expiry_for seg) (h m) <= b) ->
    (retries = -1 \/ b <= retries) ->
    (forall m, awaited (h m) <> [] -> exists j, (m <= j)%nat /\ h (S j) <> h j) ->
    (forall i, f i <> XeCancel) ->
    exists m0, forall m, (m0 <= m)%nat ->
      exists r, ndncatchunks (Cmd false false a) des (xfirst m f) [] None = Some r /\ rr_status r = Some 0 /\ rr_stdout r = input.
Proof.
  exact (both_succeed_fixed digest sign name_uri comp_uri interest_line packet_line put_usage put_version default_cv parse_signing parse_prefix
      start_error load_error put_error uri interest_text packet_text data_text mark_text component_text metadata_error final_error range_error
      usage help_text version_text ms_text elapsed parse_name face_error writable initial_rto backoff_factor R r0 srtt rto sample backoff rtts cbrt pow3 cv ns).
Qed.

(** The same for AIMD with moderate parameters, as long as the window changes at most 2^42 times. *)
Theorem C81_aimd_succeeds :
  forall (pa : put_args) (pcv : convention) (pn : name) (now : N) (input : list N) (plain : name) (v : component),
  (now < 2 ^ 64)%N -> (N.of_nat (List.length input) + 1 < 2 ^ 64)%N -> encodable (plain ++ [v]) ->
  put_accepts default_cv parse_signing pa pcv -> parse_prefix (ua_prefix pa) = inl pn -> versioned pcv now pn plain v ->
  forall a n des vname,
    acceptable parse_name face_error writable a n -> fits_name plain v a n ->
    let dh := d_run (DConfig (ca_noDiscovery a) (cc_retries (ca_opts a)) n) des in
    In (DoSuccess vname) dh ->
    forall C w (f : nat -> aevent) (b : Z),
    main (Parsed false false (ca_opts a)) = Proceed (JAimd C w) -> aimd_sane w -> aimd_moderate w ->
    let h m := a_history (a_run (aimd_policy w r0 rto sample backoff) C (first m f)) in
    (forall m, exists pes, forges_nothing digest (uo_sent (ndnputchunks (inr pa) now input pes)) cv a n des dh (h m)) ->
    (forall m, Z.of_nat (List.length (filter (fun x => match x with OWindow _ => true | _ => false end) (h m))) <= 4398046511104) ->
    (forall m seg reason, ~ refused (h m) seg reason) ->
    (forall m seg, count (lost seg) (h m) <= b) -> (cc_retries (ca_opts a) = -1 \/ b <= Z.max 1 (cc_retries (ca_opts a))) ->
    keeps_going f -> (forall i, f i <> AeCancel) ->
    exists m0, forall m, (m0 <= m)%nat ->
      exists r, ndncatchunks (Cmd false false a) des [] (first m f) None = Some r /\ rr_status r = Some 0 /\ rr_stdout r = input.
Proof.
  exact (both_succeed_aimd digest sign name_uri comp_uri interest_line packet_line put_usage put_version default_cv parse_signing parse_prefix
      start_error load_error put_error uri interest_text packet_text data_text mark_text component_text metadata_error final_error range_error
      usage help_text version_text ms_text elapsed parse_name face_error writable initial_rto backoff_factor R r0 srtt rto sample backoff rtts cbrt pow3 cv ns).
Qed.
(** The same for CUBIC, which is the default, as long as the window stays below 2^63 and can be converted to
    a 64-bit integer.  Nothing is assumed of cbrt and pow. *)
Theorem C81_cubic_succeeds :
  forall (pa : put_args) (pcv : convention) (pn : name) (now : N) (input : list N) (plain : name) (v : component),
  (now < 2 ^ 64)%N -> (N.of_nat (List.length input) + 1 < 2 ^ 64)%N -> encodable (plain ++ [v]) ->
  put_accepts default_cv parse_signing pa pcv -> parse_prefix (ua_prefix pa) = inl pn -> versioned pcv now pn plain v ->
  forall a n des vname,
    acceptable parse_name face_error writable a n -> fits_name plain v a n ->
    let dh := d_run (DConfig (ca_noDiscovery a) (cc_retries (ca_opts a)) n) des in
    In (DoSuccess vname) dh ->
    forall C w (f : nat -> aevent) (b : Z),
    main (Parsed false false (ca_opts a)) = Proceed (JCubic C w) -> cubic_sane w ->
    let P := cubic_policy cbrt pow3 w r0 srtt rto sample backoff in
    let h m := a_history (a_run P C (first m f)) in
    (forall m, exists pes, forges_nothing digest (uo_sent (ndnputchunks (inr pa) now input pes)) cv a n des dh (h m)) ->
    (forall m, convertible (p_floor P (p_initW P)) (h m)) ->
    (forall m seg reason, ~ refused (h m) seg reason) ->
    (forall m seg, count (lost seg) (h m) <= b) -> (cc_retries (ca_opts a) = -1 \/ b <= Z.max 1 (cc_retries (ca_opts a))) ->
    keeps_going f -> (forall i, f i <> AeCancel) ->
    exists m0, forall m, (m0 <= m)%nat ->
      exists r, ndncatchunks (Cmd false false a) des [] (first m f) None = Some r /\ rr_status r = Some 0 /\ rr_stdout r = input.
Proof.
  exact (both_succeed_cubic digest sign name_uri comp_uri interest_line packet_line put_usage put_version default_cv parse_signing parse_prefix
      start_error load_error put_error uri interest_text packet_text data_text mark_text component_text metadata_error final_error range_error
      usage help_text version_text ms_text elapsed parse_name face_error writable initial_rto backoff_factor R r0 srtt rto sample backoff rtts cbrt pow3 cv ns).
Qed.
(** ... and without the assumption that the window can be converted: it is enough that the window
    changes in the first eleven days only and at most 2^42 times. *)
Theorem C81_cubic_succeeds_days :
  forall (pa : put_args) (pcv : convention) (pn : name) (now : N) (input : list N) (plain : name) (v : component),
  (now < 2 ^ 64)%N -> (N.of_nat (List.length input) + 1 < 2 ^ 64)%N -> encodable (plain ++ [v]) ->
  put_accepts default_cv parse_signing pa pcv -> parse_prefix (ua_prefix pa) = inl pn -> versioned pcv now pn plain v ->
  forall a n des vname,
    acceptable parse_name face_error writable a n -> fits_name plain v a n ->
    let dh := d_run (DConfig (ca_noDiscovery a) (cc_retries (ca_opts a)) n) des in
    In (DoSuccess vname) dh ->
    forall C w (f : nat -> aevent) (b : Z),
    main (Parsed false false (ca_opts a)) = Proceed (JCubic C w) ->
    root_like cbrt -> cube_like pow3 -> cubic_sane w -> cubic_moderate w -> (forall r, usable_rtt (srtt r)) ->
    let P := cubic_policy cbrt pow3 w r0 srtt rto sample backoff in
    let s m := a_run P C (first m f) in
    let h m := a_history (s m) in
    let changes m := List.length (filter (fun x => match x with OWindow _ => true | _ => false end) (h m)) in
    (forall m, exists pes, forges_nothing digest (uo_sent (ndnputchunks (inr pa) now input pes)) cv a n des dh (h m)) ->
    (forall m, Z.of_nat (changes m) <= 4398046511104) ->
    (forall m, changes (S m) <> changes m -> a_now (s (S m)) <= 1000000000000000) ->
    (forall m seg reason, ~ refused (h m) seg reason) ->
    (forall m seg, count (lost seg) (h m) <= b) -> (cc_retries (ca_opts a) = -1 \/ b <= Z.max 1 (cc_retries (ca_opts a))) ->
    keeps_going f -> (forall i, f i <> AeCancel) ->
    exists m0, forall m, (m0 <= m)%nat ->
      exists r, ndncatchunks (Cmd false false a) des [] (first m f) None = Some r /\ rr_status r = Some 0 /\ rr_stdout r = input.
Proof.
  intros pa pcv pn now input plain v H1 H2 H3 H4 H5 H6 a n des vname H7 H8 dh H9 C w f b H10 Hr Hc Hs Hm Hrtt P s h changes H11 Hn Hd.
  exact (C81_cubic_succeeds pa pcv pn now input plain v H1 H2 H3 H4 H5 H6 a n des vname H7 H8 H9 C w f b H10 Hs H11
    (cubic_convertible_always R cbrt pow3 w r0 srtt rto sample backoff C f Hr Hc Hs Hm Hrtt Hn Hd)).
Qed.
End Environment.
Print Assumptions C81_transfer.
Print Assumptions C81_fixed_succeeds.
Print Assumptions C81_aimd_succeeds.
Print Assumptions C81_cubic_succeeds.
Print Assumptions C81_cubic_succeeds_days.

(** Five octets in segments of two, published as /A; ndncatchunks is started with /A, finds the
    version by discovery and fetches the content; segment 1 is lost once. *)
Definition c81_put : put_args := PutArgs false false (str "/A") 1000 2 (str "t") [] false true false.
Definition c81_asks (i : interest) : put_happens := UServe (CpInterest 9 100 i).
Definition c81_happens : list put_happens :=
  c81_asks (discovery_interest exA) :: map (fun k => c81_asks (segment_interest CvTyped exAv k false)) [0; 1; 2; 1]%N.
Definition c81_input : list N := [1; 2; 3; 4; 5]%N.
Definition c81_server (pes : list put_happens) : list reply :=
  uo_sent (put_program exdig (fun _ => ([27; 1; 0], repeat 0 32)%N) (fun _ => str "U") (fun _ => str "V") (fun _ => str "I") (fun _ => str "P")
    (str "USAGE") [] CvMarker (fun _ => SgValid) (fun _ => inl exA) None (fun _ _ => None) (str "too long") (inr c81_put) 7 c81_input pes).
Definition c81_args (type : string) (retries : Z) : cat_args :=
  CatArgs (CatOpts "/A" "" 4000 retries true false type 2 false false 8 200 60000
    (ai_initCwnd exAimd) (ai_initSsthresh exAimd) (ai_step exAimd) (ai_mdCoef exAimd) (ai_reset exAimd) (cu_beta exCubic) (cu_fastConv exCubic) "" "") false false f0 f0.
Definition c81_parse (s : string) : text + name := if String.eqb s "/A" then inr exA else inl (str "bad name").
Definition c81_cat (c : cat_cmd) (des : list devent) (xes : list xevent) (aes : list aevent) (broken : option text) : option run_result :=
  catchunks_program (fun _ => str "U") (fun _ _ => str "I") (fun _ => str "P") (fun _ _ => str "D") (fun _ => str "1") (fun _ => str "V")
    (fun _ => str "E") (fun _ => str "F") (str "R") (str "usage") (str "help") (str "version") c81_parse None (fun _ => false) (fun _ => str "T") 1000 2
    (fun _ => str "1 second") tt (fun _ => 0) (fun _ => 10) (fun _ _ x => x) (fun x => x) (fun _ => None) (fun x => x) (fun x => x) CvTyped 1000000000
    c des xes aes broken.
Definition c81_dh (retries : Z) : list dobs := d_run (DConfig false retries exA) [DeData exMeta].

Definition c81_pick (k : N) : packet := nth (N.to_nat k) (pr_store exP) exMeta.
Ltac member := repeat (first [left; reflexivity|right]).
Lemma c81_metadata p : In (DeData p) [DeData exMeta] -> In (RpData p) (c81_server c81_happens) /\ matches_data exdig (discovery_interest exA) p = true.
Proof. intros [H|[]]. injection H as <-. split; [vm_compute; member|vm_compute; reflexivity]. Qed.
Lemma c81_segments a retries : ca_fresh a = false -> forall vname, In (DoSuccess vname) (c81_dh retries) -> forall k, In k [0; 1; 2]%N ->
  In (RpData (c81_pick k)) (c81_server c81_happens) /\ matches_data exdig (segment_interest CvTyped vname k (ca_fresh a)) (c81_pick k) = true.
Proof.
  intros -> vname H. vm_compute in H. destruct H as [H|[H|[H|[]]]]; try discriminate. injection H as <-.
  intros k [<-|[<-|[<-|[]]]]; (split; [vm_compute; member|vm_compute; reflexivity]).
Qed.
Ltac got := vm_compute; reflexivity.

(** the hypotheses that concern ndnputchunks and the options of ndncatchunks *)
Example C81_programs :
  encodable (exA ++ [version_comp CvTyped 7]) /\ put_accepts CvMarker (fun _ => SgValid) c81_put CvTyped /\
  versioned CvTyped 7 exA exA (version_comp CvTyped 7) /\
  (forall type retries, fits_name exA (version_comp CvTyped 7) (c81_args type retries) exA) /\
  In (DoSuccess exAv) (c81_dh 1) /\ List.length (c81_server c81_happens) = 5%nat.
Proof.
  split; [split; [repeat constructor|reflexivity]|]. split; [constructor; try reflexivity; try discriminate; [apply Cc_typed; auto|split; discriminate|right; reflexivity]|].
  assert (V : forall pre w, exA = pre ++ [w] -> version_of w = None).
  { intros pre w E. destruct pre as [|x [|y pre]]; injection E; intros; subst; try discriminate. reflexivity. }
  split; [apply Vn_clock; exact V|]. split; [intros; apply Fn_plain; [reflexivity|exact V]|]. split; [vm_compute; member|vm_compute; reflexivity].
Qed.
(** a run of both *)
Example C81_run :
  c81_cat (Cmd false false (c81_args "fixed" 1)) [DeData exMeta] (xfirst 4 arrives) [] None = Some (RunResult c81_input [] (Some 0)) /\
  c81_cat (Cmd false false (c81_args "fixed" 1)) [DeData exMeta] (xfirst 3 arrives) [] None = Some (RunResult [1; 2]%N [] None) /\
  cat_main (fun s => match c81_parse s with inl _ => false | inr _ => true end) (fun _ => false) (Parsed false false (ca_opts (c81_args "fixed" 1))) =
    Proceed (JFixed (XConfig 2 1 d_appnack)) /\
  (forall m, exists pes, forges_nothing exdig (c81_server pes) CvTyped (c81_args "fixed" 1) exA [DeData exMeta] (c81_dh 1) (course m)).
Proof.
  split; [vm_compute; reflexivity|]. split; [vm_compute; reflexivity|]. split; [reflexivity|].
  intros m. exists c81_happens. apply (forges_check _ _ _ _ _ _ _ _ c81_pick); [exact c81_metadata|apply c81_segments; reflexivity|].
  revert m. apply (course_all (fun h => forallb _ h = true)); got.
Qed.
(** the other hypotheses of [C81_fixed_succeeds], with one loss and one retry *)
Example C81_fixed :
  (forall m seg reason, ~ refused (course m) seg reason) /\
  (forall m seg, count (nack_for seg) (course m) <= 1) /\ (forall m seg, count (expiry_for seg) (course m) <= 1) /\
  count (expiry_for 1) (course 4) = 1 /\
  (forall m, awaited (course m) <> [] -> exists j, (m <= j)%nat /\ course (S j) <> course j) /\
  (forall i, arrives i <> XeCancel).
Proof.
  assert (L : forall m seg, count (nack_for seg) (course m) <= 1 /\ count (expiry_for seg) (course m) <= 1).
  { apply (course_all (fun h => forall seg, count (nack_for seg) h <= 1 /\ count (expiry_for seg) h <= 1));
      apply lossesX_all; first [vm_compute; reflexivity|lia]. }
  split; [apply (course_all (fun h => forall seg reason, ~ refused h seg reason)); apply not_nacked; vm_compute; reflexivity|].
  split; [intros m seg; apply L|]. split; [intros m seg; apply L|]. split; [vm_compute; reflexivity|].
  split; [exact course_fair|exact arrives_no_cancel].
Qed.
(** those of [C81_aimd_succeeds] *)
Definition c81_aimd (m : nat) : list pobs := acourse (aimd_policy exAimd tt (fun _ => 10) (fun _ _ r => r) (fun r => r)) m.
Example C81_aimd :
  (forall m, exists pes, forges_nothing exdig (c81_server pes) CvTyped (c81_args "aimd" 15) exA [DeData exMeta] (c81_dh 15) (c81_aimd m)) /\
  cat_main (fun s => match c81_parse s with inl _ => false | inr _ => true end) (fun _ => false) (Parsed false false (ca_opts (c81_args "aimd" 15))) =
    Proceed (JAimd (catchunks_config 15 false false) exAimd) /\
  (forall m, Z.of_nat (List.length (filter (fun x => match x with OWindow _ => true | _ => false end) (c81_aimd m))) <= 4398046511104) /\
  (forall m seg reason, ~ refused (c81_aimd m) seg reason) /\
  (forall m seg, count (lost seg) (c81_aimd m) <= 1) /\ count (lost 1) (c81_aimd 5) = 1 /\
  keeps_going goes /\ (forall i, goes i <> AeCancel).
Proof.
  set (P := aimd_policy exAimd tt (fun _ => 10) (fun _ _ r => r) (fun r => r)).
  assert (Hs : b_stopping (a_b (a_run P tcfg (first 5 goes))) = true) by (vm_compute; reflexivity).
  split.
  { intros m. exists c81_happens. apply (forges_check _ _ _ _ _ _ _ _ c81_pick); [exact c81_metadata|apply c81_segments; reflexivity|].
    revert m. apply (acourse_all P Hs (fun h => forallb _ h = true)); got. }
  split; [reflexivity|].
  split; [apply (acourse_all P Hs (fun h => Z.of_nat (List.length (filter (fun x => match x with OWindow _ => true | _ => false end) h)) <= 4398046511104)); vm_compute; discriminate|].
  split; [apply (acourse_all P Hs (fun h => forall seg reason, ~ refused h seg reason)); apply not_nacked; vm_compute; reflexivity|].
  split; [apply (acourse_all P Hs (fun h => forall seg, count (lost seg) h <= 1)); apply losses_all; first [vm_compute; reflexivity|lia]|].
  split; [vm_compute; reflexivity|]. split; [exact goes_on|exact goes_no_cancel].
Qed.
(** those of [C81_cubic_succeeds], with a round-trip time of 10 ms *)
Definition c81_cubic_policy :=
  cubic_policy fsqrt (fun x => fmul x (fmul x x)) exCubic tt (fun _ => 10000000) (fun _ => 10) (fun _ _ r => r) (fun r => r).
Definition c81_cubic (m : nat) : list pobs := acourse c81_cubic_policy m.
Example C81_cubic :
  (forall m, exists pes, forges_nothing exdig (c81_server pes) CvTyped (c81_args "cubic" 15) exA [DeData exMeta] (c81_dh 15) (c81_cubic m)) /\
  cat_main (fun s => match c81_parse s with inl _ => false | inr _ => true end) (fun _ => false) (Parsed false false (ca_opts (c81_args "cubic" 15))) =
    Proceed (JCubic (catchunks_config 15 false false) exCubic) /\
  cubic_sane exCubic /\
  (forall m, convertible (p_floor c81_cubic_policy (p_initW c81_cubic_policy)) (c81_cubic m)) /\
  (forall m seg reason, ~ refused (c81_cubic m) seg reason) /\
  (forall m seg, count (lost seg) (c81_cubic m) <= 1) /\ count (lost 1) (c81_cubic 5) = 1 /\
  keeps_going goes /\ (forall i, goes i <> AeCancel).
Proof.
  set (P := c81_cubic_policy).
  assert (Hs : b_stopping (a_b (a_run P tcfg (first 5 goes))) = true) by (vm_compute; reflexivity).
  split.
  { intros m. exists c81_happens. apply (forges_check _ _ _ _ _ _ _ _ c81_pick); [exact c81_metadata|apply c81_segments; reflexivity|].
    revert m. apply (acourse_all P Hs (fun h => forallb _ h = true)); got. }
  split; [reflexivity|]. split; [exact (proj1 C19_case)|].
  split; [apply (acourse_all P Hs (fun h => convertible _ h)); apply convertible_check; vm_compute; reflexivity|].
  split; [apply (acourse_all P Hs (fun h => forall seg reason, ~ refused h seg reason)); apply not_nacked; vm_compute; reflexivity|].
  split; [apply (acourse_all P Hs (fun h => forall seg, count (lost seg) h <= 1)); apply losses_all; first [vm_compute; reflexivity|lia]|].
  split; [vm_compute; reflexivity|]. split; [exact goes_on|exact goes_no_cancel].
Qed.
(** the conditions of [C81_cubic_succeeds_days] on the window, in the same run *)
Lemma c81_few : Forall (fun m => (a_now (a_run c81_cubic_policy tcfg (first m goes)) <=? 1000000000000000) = true) [1; 2; 3; 4; 5]%nat.
Proof. repeat (constructor; [vm_compute; reflexivity|]). constructor. Qed.
Example C81_cubic_days :
  let changes m := List.length (filter (fun x => match x with OWindow _ => true | _ => false end) (c81_cubic m)) in
  root_like fsqrt /\ cube_like (fun x => fmul x (fmul x x)) /\ cubic_moderate exCubic /\ usable_rtt 10000000 /\
  (forall m, Z.of_nat (changes m) <= 4398046511104) /\
  (forall m, changes (S m) <> changes m -> (a_now (a_run c81_cubic_policy tcfg (first (S m) goes)) <=? 1000000000000000) = true) /\
  changes 5%nat = 4%nat.
Proof.
  cbv zeta. assert (Hs : b_stopping (a_b (a_run c81_cubic_policy tcfg (first 5 goes))) = true) by (vm_compute; reflexivity).
  split; [exact root_ok|]. split; [exact cube_ok|]. split; [exact (proj2 default_moderate)|]. split; [unfold usable_rtt; lia|].
  split; [apply (acourse_all c81_cubic_policy Hs (fun h => Z.of_nat (List.length (filter (fun x => match x with OWindow _ => true | _ => false end) h)) <= 4398046511104)); vm_compute; discriminate|].
  split; [|vm_compute; reflexivity]. intros m. destruct (Nat.le_gt_cases 5 m) as [H|H].
  - pose proof (acourse_end c81_cubic_policy Hs (m - 5)) as E1. pose proof (acourse_end c81_cubic_policy Hs (S m - 5)) as E2. unfold c81_cubic.
    replace (5 + (m - 5))%nat with m in E1 by lia. replace (5 + (S m - 5))%nat with (S m) in E2 by lia. rewrite E1, E2. intros X. contradiction X. reflexivity.
  - intros _. pose proof c81_few as F. rewrite Forall_forall in F. apply F. do 5 (destruct m as [|m]; [repeat (first [left; reflexivity|right])|]). lia.
Qed.
