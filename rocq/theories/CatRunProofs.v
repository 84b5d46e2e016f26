(** ndncatchunks as a program: what it prints and how it ends. *)
From Verif Require Import Base BaseFacts TlvModel PipelineBase PipelineSpec FetcherModel FixedModel FixedSpec AdaptiveModel WindowModel ConsumerModel CatchunksModel
  PutchunksModel DiscoverModel DiscoverSpec DiscoverProofs ExitModel Double DumpModel PingModel DecimalModel ChunksTextModel PeekRunModel CatMsgModel OptionsModel
  CatLinesSpec CatLines CatLinesFixed CatFailSpec CatFailFixed CatFailAdaptive CatFailDisc CatRunModel CatTextSpec CatTextProofs CatRunSpec.
From Coq Require Import String List.
Import ListNotations.
Local Open Scope Z_scope.
Local Open Scope list_scope.
Local Opaque str to_string.

(** ** the machines *)
Section Machine.
Variable M : machine.
Fixpoint says_from (s : mc_state M) (es : list (mc_event M)) : list cmsg :=
  match es with [] => [] | e :: es => mc_says M s e ++ says_from (mc_step M s e) es end.
Fixpoint fails_from (s : mc_state M) (es : list (mc_event M)) : option failure :=
  match es with
  | [] => None
  | e :: es => match mc_fails M s e with Some f => Some f | None => fails_from (mc_step M s e) es end
  end.
Lemma mc_run_spec es : forall s m s' f, mc_run M s es = (m, s', f) ->
  exists es1 es2, es = es1 ++ es2 /\ (f = None -> es2 = []) /\
    m = says_from s es1 /\ s' = fold_left (mc_step M) es1 s /\ f = fails_from s es1.
Proof.
  induction es as [|e es IH]; intros s m s' f H; cbn [mc_run] in H.
  - injection H as <- <- <-. exists [], []. repeat split.
  - destruct (mc_fails M s e) as [f0|] eqn:Ef.
    + injection H as <- <- <-. exists [e], es. cbn. rewrite Ef, app_nil_r. repeat split. discriminate.
    + destruct (mc_run M (mc_step M s e) es) as [[m1 s1] f1] eqn:Er. injection H as <- <- <-.
      destruct (IH _ _ _ _ Er) as (es1 & es2 & -> & H2 & -> & -> & ->).
      exists (e :: es1), es2. cbn. rewrite Ef. repeat split. exact H2.
Qed.
End Machine.

Lemma fixed_says C summary es : forall s, says_from (fixed_machine C summary) s es = mx_from C summary s es.
Proof. induction es as [|e es IH]; intros s; cbn; [reflexivity|]. now rewrite IH. Qed.
Lemma fixed_fails C summary es : forall s, fails_from (fixed_machine C summary) s es = x_failure_from C s es.
Proof. induction es as [|e es IH]; intros s; cbn; [reflexivity|]. now rewrite IH. Qed.
Lemma adaptive_says {W R} (P : policy W R) C cwnd ssthresh summary es :
  forall s, says_from (adaptive_machine P C cwnd ssthresh summary) s es = ma_from P C cwnd ssthresh summary s es.
Proof. induction es as [|e es IH]; intros s; cbn; [reflexivity|]. now rewrite IH. Qed.
Lemma adaptive_fails {W R} (P : policy W R) C cwnd ssthresh summary es :
  forall s, fails_from (adaptive_machine P C cwnd ssthresh summary) s es = a_failure_from P C s es.
Proof. induction es as [|e es IH]; intros s; cbn; [reflexivity|]. now rewrite IH. Qed.

(** ** the run *)
Lemma run_not_both dc des n : In (DoSuccess n) (d_run dc des) -> In DoFailure (d_run dc des) -> False.
Proof.
  intros H1 H2. apply in_split in H1. destruct H1 as (a & b & E).
  destruct (discovery_outcome_last dc des a (DoSuccess n) b E eq_refl) as [-> Hq].
  rewrite E in H2. apply in_app_or in H2. destruct H2 as [H2|[H2|[]]]; [|discriminate].
  unfold quiet in Hq. rewrite Forall_forall in Hq. specialize (Hq _ H2). discriminate.
Qed.

Section Generic.
Variable sh : list cmsg -> text.
Variable explain : failure -> text.
Variable dc : dconfig.
Variable M : machine.
(** the messages and the failure of a run of the pipeline, and what explains it *)
Variable pm : list (mc_event M) -> list cmsg.
Variable pf : list (mc_event M) -> option failure.
Variable st : list (mc_event M) -> mc_state M.
Variable pe : list pobs -> failure -> Prop.
Hypothesis Hm : forall es, pm es = mc_hello M ++ says_from M (mc_start M) es.
Hypothesis Hf : forall es, pf es = fails_from M (mc_start M) es.
Hypothesis Hs : forall es, st es = fold_left (mc_step M) es (mc_start M).
Hypothesis He : forall es f, pf es = Some f -> pe (mc_history M (st es)) f.
Hypothesis Hst : forall es, pipeline_status (mc_working M (st es)) (mc_history M (st es)) =
  match pf es with
  | None => if mc_working M (st es) then None else Some 0
  | Some (FlAppNack _ _) => Some 3
  | Some _ => Some 1
  end.

Theorem cat_run_spec des es broken :
  let dh := d_run dc des in
  let r := cat_run sh explain dc M des es broken in
  exists es1 es2 err,
    es = es1 ++ es2 /\ (rr_status r = None -> es2 = []) /\
    let s := st es1 in
    let started := existsb is_dsuccess dh in
    rr_stdout r = (if started then catchunks_stdout (mc_history M s) else []) /\
    rr_stderr r = sh (md_run dc des ++ if started then pm es1 else []) ++ err /\
    ends_with explain
      (fun f => discovery_explained (dc_retries dc) dh f \/ (started = true /\ pe (mc_history M s) f))
      (catchunks_status dh (mc_working M s) (mc_history M s)) broken (rr_status r) err.
Proof.
  cbv zeta. pose proof (discovery_reason dc des) as Hd. unfold cat_run, catchunks_status.
  destruct (d_failure_run dc des) as [f|] eqn:Ef.
  - destruct Hd as [Hd1 Hd2]. exists [], es, (error_line (explain f)).
    assert (Hn : existsb is_dsuccess (d_run dc des) = false).
    { destruct (existsb is_dsuccess (d_run dc des)) eqn:Ex; [|reflexivity]. exfalso.
      apply existsb_exists in Ex. destruct Ex as (o & Ho & Hx). destruct o as [| | | | |n|]; try discriminate.
      apply existsb_exists in Hd1. destruct Hd1 as (o & Ho2 & Hx2). destruct o; try discriminate.
      exact (run_not_both dc des n Ho Ho2). }
    rewrite Hn, Hd1, app_nil_r. split; [reflexivity|]. split; [discriminate|]. split; [reflexivity|]. split; [reflexivity|].
    assert (Ha : ~ exists seg d, f = FlAppNack seg d) by (intros (? & ? & ->); exact Hd2).
    cbn [rr_status]. replace (failure_status f) with 1 by (destruct f; try reflexivity; exfalso; eauto).
    apply E_failure; auto.
  - rewrite Hd. destruct (existsb is_dsuccess (d_run dc des)) eqn:Es.
    + destruct (mc_run M (mc_start M) es) as [[m s] f] eqn:Er.
      destruct (mc_run_spec _ _ _ _ _ _ Er) as (es1 & es2 & -> & H2 & -> & -> & Hfe).
      rewrite <- Hs. pose proof (Hst es1) as Hx. pose proof (He es1) as Hy. rewrite Hf, <- Hfe in Hx, Hy.
      exists es1, es2. rewrite Hx, Hm. destruct f as [f|].
      * exists (error_line (explain f)). split; [reflexivity|]. split; [discriminate|]. split; [reflexivity|]. split; [reflexivity|].
        cbn [rr_status]. specialize (Hy f eq_refl).
        assert (Hb : discovery_explained (dc_retries dc) (d_run dc des) f \/ true = true /\ pe (mc_history M (st es1)) f) by auto.
        destruct f; try (apply E_failure; [reflexivity|exact Hb|intros (? & ? & E0); discriminate]).
        apply E_nack; [reflexivity|exact Hb|eauto].
      * rewrite (H2 eq_refl), app_nil_r. destruct (mc_working M (st es1)); [destruct broken as [what|]|].
        -- exists (error_line what). repeat split. now apply E_broken.
        -- exists []. cbn [rr_stdout rr_stderr rr_status]. rewrite app_nil_r. repeat split. now apply E_running.
        -- exists []. cbn [rr_stdout rr_stderr rr_status]. rewrite app_nil_r. repeat split. now apply E_success.
    + destruct broken as [what|].
      * exists es, [], (error_line what). rewrite !app_nil_r. repeat split. now apply E_broken.
      * exists es, [], []. rewrite !app_nil_r. cbn [rr_stdout rr_stderr rr_status]. repeat split. now apply E_running.
Qed.
End Generic.

Lemma cat_run_fixed sh explain dc size retries summary des es broken : (0 < size)%nat ->
  let C := XConfig size retries d_appnack in
  let dh := d_run dc des in
  let r := cat_run sh explain dc (fixed_machine C summary) des es broken in
  exists es1 es2 err,
    es = es1 ++ es2 /\ (rr_status r = None -> es2 = []) /\
    let h := x_history (x_run C es1) in
    let started := existsb is_dsuccess dh in
    rr_stdout r = (if started then catchunks_stdout h else []) /\
    rr_stderr r = sh (md_run dc des ++ if started then mx_run C summary es1 else []) ++ err /\
    ends_with explain
      (fun f => discovery_explained (dc_retries dc) dh f \/ (started = true /\ pipeline_explained (failure_caused_fixed retries) retries h f))
      (catchunks_status dh (x_working (x_run C es1)) h) broken (rr_status r) err.
Proof.
  intros Hsize C. set (M := fixed_machine C summary).
  apply (cat_run_spec sh explain dc M (mx_run C summary) (x_failure_run C) (x_run C)
           (pipeline_explained (failure_caused_fixed retries) retries)).
  - intros es'. unfold mx_run. now rewrite <- fixed_says.
  - intros es'. unfold M. now rewrite fixed_fails.
  - intros es'. reflexivity.
  - intros es' f. now apply (fixed_explained C eq_refl Hsize).
  - intros es'. now apply (fixed_status C eq_refl Hsize).
Qed.

Lemma cat_run_adaptive W R (P : policy W R) sh explain dc retries ignore nocwa cwnd ssthresh summary des es broken :
  let C := AConfig retries ignore nocwa d_appnack in
  let dh := d_run dc des in
  let r := cat_run sh explain dc (adaptive_machine P C cwnd ssthresh summary) des es broken in
  exists es1 es2 err,
    es = es1 ++ es2 /\ (rr_status r = None -> es2 = []) /\
    let h := a_history (a_run P C es1) in
    let started := existsb is_dsuccess dh in
    rr_stdout r = (if started then catchunks_stdout h else []) /\
    rr_stderr r = sh (md_run dc des ++ if started then ma_run P C cwnd ssthresh summary es1 else []) ++ err /\
    ends_with explain
      (fun f => discovery_explained (dc_retries dc) dh f \/ (started = true /\ pipeline_explained (failure_justified retries) retries h f))
      (catchunks_status dh (a_working (a_run P C es1)) h) broken (rr_status r) err.
Proof.
  intros C. set (M := adaptive_machine P C cwnd ssthresh summary).
  apply (cat_run_spec sh explain dc M (ma_run P C cwnd ssthresh summary) (a_failure_run P C) (a_run P C)
           (pipeline_explained (failure_justified retries) retries)).
  - intros es'. unfold ma_run. now rewrite <- adaptive_says.
  - intros es'. unfold M. now rewrite adaptive_fails.
  - intros es'. reflexivity.
  - intros es' f. now apply (adaptive_explained P C eq_refl).
  - intros es'. now apply (adaptive_status P C eq_refl).
Qed.

(** ** what is shown without --verbose *)
Section Shown.
Variables (uri : name -> text) (it : name -> Z -> text) (pt : packet -> text) (mt : data -> text) (ct : component -> text).
Variables (sn : N -> name) (mn : name).
Lemma show_quiet m : show it pt mt ct sn mn true false m = [].
Proof. unfold show. induction m as [|x m IH]; [reflexivity|]. destruct x; exact IH. Qed.
Lemma show_normal m : show it pt mt ct sn mn false false m = concat (summaries m).
Proof. unfold show, summaries. induction m as [|x m IH]; [reflexivity|]. destruct x; cbn; try exact IH. now rewrite IH. Qed.
Lemma show_verbose m : show it pt mt ct sn mn false true m = flat_map (msg_text it pt mt ct sn mn) m.
Proof. unfold show. f_equal. induction m as [|x m IH]; [reflexivity|]. destruct x; cbn; now rewrite IH. Qed.
End Shown.

(** ** the options *)
Section Options.
Variables (usage help_text version_text : text) (parse_name : string -> text + name) (face_error : option text) (writable : string -> bool).
Variables (ms_text : Z -> text) (initial_rto backoff : Z).
Notation prepare := (cat_prepare usage help_text version_text parse_name face_error writable ms_text initial_rto backoff).

(** the checks are those of OptionsModel *)
Definition erase (p : prepared) : outcome cat_job :=
  match p with
  | Stop r => match rr_status r with Some s => Exit s | None => Undefined end
  | Overflow => Undefined
  | Go _ _ j => Proceed j
  end.
Definition parsed (c : cat_cmd) : cmdline cat_opts :=
  match c with CmdError _ => PoError | Cmd h v a => Parsed h v (ca_opts a) end.
Lemma prepare_main c : face_error = None ->
  erase (prepare c) = cat_main (fun s => match parse_name s with inl _ => false | inr _ => true end) writable (parsed c).
Proof.
  intros Hf. destruct c as [what|h v a]; cbn [parsed]; [reflexivity|].
  unfold cat_prepare, cat_main, checks. rewrite Hf. destruct (parse_name (cc_prefix (ca_opts a))) as [what|n] eqn:En; cbn [negb];
  destruct (String.eqb (cc_type (ca_opts a)) "aimd"), (String.eqb (cc_type (ca_opts a)) "cubic"); cbn [orb];
  repeat match goal with |- context [if ?b then _ else _] => destruct b eqn:?; cbn [erase rr_status]; try reflexivity end.
Qed.

Lemma empty_true s : empty s = true <-> s = ""%string.
Proof. apply String.eqb_eq. Qed.
Lemma empty_false s : empty s = false <-> s <> ""%string.
Proof. apply String.eqb_neq. Qed.
Lemma convention_in s : badConvention s = false <-> In s ["marker"; "m"; "1"; "typed"; "t"; "2"; ""]%string.
Proof.
  unfold badConvention. cbn [In].
  destruct (String.eqb_spec s "marker"), (String.eqb_spec s "m"), (String.eqb_spec s "1"), (String.eqb_spec s "typed"),
    (String.eqb_spec s "t"), (String.eqb_spec s "2"); cbn [orb]; split; intros H; subst; auto 10;
    try (apply negb_false_iff, empty_true in H; subst; auto 10).
  apply negb_false_iff, empty_true. intuition congruence.
Qed.
Lemma fits_spec z : fits64 (z * 1000000) = true <-> representable z.
Proof. unfold fits64, representable. rewrite andb_true_iff, !Z.leb_le. lia. Qed.

Lemma prepare_spec c :
  match prepare c with
  | Stop r => answer usage help_text version_text parse_name face_error writable ms_text initial_rto backoff c r
  | Overflow => exists a, c = Cmd false false a /\ ~ (representable (cc_minRto (ca_opts a)) /\ representable (cc_maxRto (ca_opts a)))
  | Go report n j =>
      exists a, c = Cmd false false a /\ acceptable parse_name face_error writable a n /\
      (if cc_verbose (ca_opts a) then parameters ms_text initial_rto backoff a report else report = [])
  end.
Proof.
  destruct c as [what|h v a]; [constructor|]. unfold cat_prepare.
  destruct h; [constructor|]. destruct v; [constructor|].
  set (o := ca_opts a) in *.
  destruct (empty (cc_prefix o)) eqn:E0; [apply A_usage; now apply empty_true|]. apply empty_false in E0.
  Local Ltac bad := apply A_unacceptable; [assumption|constructor].
  destruct (badConvention (cc_nameConv o)) eqn:E1.
  { bad. rewrite <- convention_in. fold o. congruence. }
  apply convention_in in E1.
  destruct (cc_lifetime o <? 0) eqn:E2. { bad. now apply Z.ltb_lt. }
  destruct ((cc_retries o <? -1) || (1024 <? cc_retries o)) eqn:E3. { bad. fold o. lia. }
  destruct (cc_quiet o && cc_verbose o) eqn:E4. { apply andb_true_iff in E4. destruct E4. bad; assumption. }
  destruct ((cc_size o <? 1) || (1024 <? cc_size o)) eqn:E5. { bad. fold o. lia. }
  destruct (cc_rtoK o <? 0) eqn:E6. { bad. now apply Z.ltb_lt. }
  destruct (fits64 (cc_minRto o * 1000000)) eqn:E7; cbn [negb].
  2:{ exists a. split; [reflexivity|]. intros [H _]. apply fits_spec in H. fold o in H. congruence. }
  destruct (cc_minRto o * 1000000 <? 0) eqn:E8. { bad. fold o. lia. }
  destruct (fits64 (cc_maxRto o * 1000000)) eqn:E9; cbn [negb].
  2:{ exists a. split; [reflexivity|]. intros [_ H]. apply fits_spec in H. fold o in H. congruence. }
  destruct (cc_maxRto o * 1000000 <? cc_minRto o * 1000000) eqn:E10. { bad. fold o. lia. }
  destruct face_error as [what|] eqn:Ef; [now apply A_face|].
  destruct (parse_name (cc_prefix o)) as [what|n] eqn:En; [now apply A_name|].
  assert (Hu : In (cc_type o) ["fixed"; "aimd"; "cubic"]%string -> forall msg, ~ unacceptable o msg).
  { intros Ht msg Hm. inversion Hm; subst; try contradiction; try lia. }
  assert (Hok : forall (report : text) (j : cat_job), cc_type o = "fixed"%string \/
      (forall path, In path [cc_logCwnd o; cc_logRtt o] -> path = ""%string \/ writable path = true) ->
      In (cc_type o) ["fixed"; "aimd"; "cubic"]%string -> parameters ms_text initial_rto backoff a report ->
      exists a0, Cmd false false a = Cmd false false a0 /\ acceptable parse_name None writable a0 n /\
        (if cc_verbose (ca_opts a0) then parameters ms_text initial_rto backoff a0 (if cc_verbose o then report else [])
         else (if cc_verbose o then report else []) = [])
      /\ j = j :> cat_job).
  { intros report j Hl Ht Hp. exists a. split; [reflexivity|]. split; [|split; [|reflexivity]].
    - constructor; auto.
    - fold o. now destruct (cc_verbose o). }
  destruct (String.eqb_spec (cc_type o) "fixed") as [Et|Et].
  { destruct (Hok (fixed_report ms_text a) (JFixed (XConfig (Z.to_nat (cc_size o)) (cc_retries o) d_appnack))) as (a0 & H1 & H2 & H3 & _);
      [now left|rewrite Et; now left|now apply params_fixed|]. eauto. }
  assert (Hlog : forall (report : text) (j : cat_job), cc_type o = "aimd"%string \/ cc_type o = "cubic"%string ->
    parameters ms_text initial_rto backoff a report ->
    match (if negb (empty (cc_logCwnd o)) && negb (writable (cc_logCwnd o))
           then Stop (RunResult [] ((if cc_verbose o then report else []) ++ error_line (str "failed to open '" ++ str (cc_logCwnd o) ++ str "'")) (Some 4))
           else if negb (empty (cc_logRtt o)) && negb (writable (cc_logRtt o))
           then Stop (RunResult [] ((if cc_verbose o then report else []) ++ error_line (str "failed to open '" ++ str (cc_logRtt o) ++ str "'")) (Some 4))
           else Go (if cc_verbose o then report else []) n j) with
    | Stop r => answer usage help_text version_text parse_name None writable ms_text initial_rto backoff (Cmd false false a) r
    | Overflow => exists a0, Cmd false false a = Cmd false false a0 /\ ~ (representable (cc_minRto (ca_opts a0)) /\ representable (cc_maxRto (ca_opts a0)))
    | Go report n j =>
        exists a0, Cmd false false a = Cmd false false a0 /\ acceptable parse_name None writable a0 n /\
        (if cc_verbose (ca_opts a0) then parameters ms_text initial_rto backoff a0 report else report = [])
    end).
  { intros report j Ht Hp.
    assert (Hl : forall path, error_line (str "failed to open '" ++ str path ++ str "'") = str "ERROR: failed to open '" ++ str path ++ str "'" ++ nl).
    { intros path. unfold error_line. rewrite <- !app_assoc. change (str "ERROR: failed to open '") with (str "ERROR: " ++ str "failed to open '").
      now rewrite <- app_assoc. }
    rewrite !Hl.
    destruct (negb (empty (cc_logCwnd o)) && negb (writable (cc_logCwnd o))) eqn:L1.
    { apply andb_true_iff in L1. destruct L1 as [L1 L2]. apply negb_true_iff in L1, L2.
      apply A_log; [now left|now apply empty_false|exact L2|exact Et|]. fold o. now destruct (cc_verbose o). }
    destruct (negb (empty (cc_logRtt o)) && negb (writable (cc_logRtt o))) eqn:L2.
    { apply andb_true_iff in L2. destruct L2 as [L3 L4]. apply negb_true_iff in L3, L4.
      apply A_log; [right; now left|now apply empty_false|exact L4|exact Et|]. fold o. now destruct (cc_verbose o). }
    destruct (Hok report j) as (a0 & H1 & H2 & H3 & _).
    - right. intros path [<-|[<-|[]]].
      + apply andb_false_iff in L1. destruct L1 as [L|L]; apply negb_false_iff in L; [left; now apply empty_true|now right].
      + apply andb_false_iff in L2. destruct L2 as [L|L]; apply negb_false_iff in L; [left; now apply empty_true|now right].
    - cbn. intuition.
    - exact Hp.
    - eauto. }
  destruct (String.eqb_spec (cc_type o) "aimd") as [Ea|Ea]; [apply Hlog; [now left|now apply params_aimd]|].
  destruct (String.eqb_spec (cc_type o) "cubic") as [Ec|Ec]; [apply Hlog; [now right|now apply params_cubic]|].
  bad. fold o. cbn. intuition.
Qed.
End Options.

(** ** the whole program *)
Section Program.
Variables (uri : name -> text) (interest_text : name -> Z -> text) (packet_text : packet -> text) (data_text : N -> data -> text)
  (mark_text : data -> text) (component_text : component -> text) (metadata_error : packet -> text) (final_error : data -> text)
  (range_error : text).
Variables (usage help_text version_text : text) (parse_name : string -> text + name) (face_error : option text)
  (writable : string -> bool) (ms_text : Z -> text) (initial_rto backoff_factor : Z).
Variable elapsed : Z -> text.
Context {R : Type}.
Variables (r0 : R) (srtt rto : R -> Z) (sample : Z -> Z -> R -> R) (backoff : R -> R) (rtts : R -> option (Z * Z * Z))
  (cbrt pow3 : f64 -> f64).
Variables (cv : convention) (ns : Z).
Notation program := (catchunks_program uri interest_text packet_text data_text mark_text component_text metadata_error final_error range_error
  usage help_text version_text parse_name face_error writable ms_text initial_rto backoff_factor elapsed r0 srtt rto sample backoff rtts cbrt pow3 cv ns).
Notation prepare := (cat_prepare usage help_text version_text parse_name face_error writable ms_text initial_rto backoff_factor).
Notation transfer := (transfer elapsed r0 srtt rto sample backoff rtts cbrt pow3 ns).

Lemma prepare_job report n j a : prepare (Cmd false false a) = Go report n j ->
  match j with
  | JFixed C => C = XConfig (Z.to_nat (cc_size (ca_opts a))) (cc_retries (ca_opts a)) d_appnack /\ (0 < Z.to_nat (cc_size (ca_opts a)))%nat
  | JAimd C _ | JCubic C _ => C = AConfig (cc_retries (ca_opts a)) (cc_ignoreMarks (ca_opts a)) (cc_disableCwa (ca_opts a)) d_appnack
  end.
Proof.
  unfold cat_prepare. set (o := ca_opts a).
  destruct (empty (cc_prefix o)); [discriminate|]. destruct (badConvention (cc_nameConv o)); [discriminate|].
  destruct (cc_lifetime o <? 0); [discriminate|]. destruct ((cc_retries o <? -1) || (1024 <? cc_retries o)); [discriminate|].
  destruct (cc_quiet o && cc_verbose o); [discriminate|]. destruct ((cc_size o <? 1) || (1024 <? cc_size o)) eqn:Es; [discriminate|].
  destruct (cc_rtoK o <? 0); [discriminate|]. destruct (fits64 (cc_minRto o * 1000000)); [|discriminate]. cbn [negb].
  destruct (cc_minRto o * 1000000 <? 0); [discriminate|]. destruct (fits64 (cc_maxRto o * 1000000)); [|discriminate]. cbn [negb].
  destruct (cc_maxRto o * 1000000 <? cc_minRto o * 1000000); [discriminate|]. destruct face_error; [discriminate|].
  destruct (parse_name (cc_prefix o)); [discriminate|].
  destruct (String.eqb (cc_type o) "fixed"). { intros H. injection H as <- <- <-. split; [reflexivity|]. lia. }
  destruct (negb (empty (cc_logCwnd o)) && negb (writable (cc_logCwnd o))), (negb (empty (cc_logRtt o)) && negb (writable (cc_logRtt o))),
    (String.eqb (cc_type o) "aimd"), (String.eqb (cc_type o) "cubic"); try discriminate; intros H; injection H as <- <- <-; reflexivity.
Qed.

Lemma program_spec c des xes aes broken :
  match program c des xes aes broken with
  | None => exists a, c = Cmd false false a /\ ~ (representable (cc_minRto (ca_opts a)) /\ representable (cc_maxRto (ca_opts a)))
  | Some r =>
      answer usage help_text version_text parse_name face_error writable ms_text initial_rto backoff_factor c r \/
      exists a n j report xes1 xes2 aes1 aes2 err,
        c = Cmd false false a /\ acceptable parse_name face_error writable a n /\
        cat_main (fun s => match parse_name s with inl _ => false | inr _ => true end) writable (Parsed false false (ca_opts a)) = Proceed j /\
        xes = xes1 ++ xes2 /\ aes = aes1 ++ aes2 /\ (rr_status r = None -> (if is_fixed j then xes2 = [] else aes2 = [])) /\
        let o := ca_opts a in
        let dc := DConfig (ca_noDiscovery a) (cc_retries o) n in
        let dh := d_run dc des in
        let '(h, working, m) := transfer j xes1 aes1 in
        let started := existsb is_dsuccess dh in
        let sname k := found dh ++ [segment_comp cv k] in
        let mname := discovery_name n in
        rr_stdout r = (if started then catchunks_stdout h else []) /\
        rr_stderr r = report ++
          show interest_text packet_text mark_text component_text sname mname (cc_quiet o) (cc_verbose o)
            (md_run dc des ++ if started then m else []) ++ err /\
        (if cc_verbose o then parameters ms_text initial_rto backoff_factor a report else report = []) /\
        ends_with (failure_text uri data_text metadata_error final_error range_error sname mname (cc_retries o))
          (fun f => discovery_explained (cc_retries o) dh f \/
                    (started = true /\ pipeline_explained (reason_true j (cc_retries o)) (cc_retries o) h f))
          (catchunks_status dh working h) broken (rr_status r) err /\
        tells (cc_retries o) (is_fixed j) [] m h
  end.
Proof.
  pose proof (prepare_spec usage help_text version_text parse_name face_error writable ms_text initial_rto backoff_factor c) as Hp.
  unfold catchunks_program. destruct (prepare c) as [r| |report n j] eqn:Ep; [now left|exact Hp|].
  destruct Hp as (a & -> & Ha & Hr). pose proof (prepare_job _ _ _ _ Ep) as Hj.
  assert (Hmain : cat_main (fun s => match parse_name s with inl _ => false | inr _ => true end) writable (Parsed false false (ca_opts a)) = Proceed j).
  { pose proof (prepare_main usage help_text version_text parse_name face_error writable ms_text initial_rto backoff_factor
      (Cmd false false a) (ok_face _ _ _ _ _ Ha)) as H. rewrite Ep in H. symmetry. exact H. }
  right. destruct j as [C|C w|C w].
  - destruct Hj as [-> Hsize].
    destruct (cat_run_fixed
      (show interest_text packet_text mark_text component_text (fun k => found (d_run (DConfig (ca_noDiscovery a) (cc_retries (ca_opts a)) n) des) ++ [segment_comp cv k])
         (discovery_name n) (cc_quiet (ca_opts a)) (cc_verbose (ca_opts a)))
      (failure_text uri data_text metadata_error final_error range_error (fun k => found (d_run (DConfig (ca_noDiscovery a) (cc_retries (ca_opts a)) n) des) ++ [segment_comp cv k])
         (discovery_name n) (cc_retries (ca_opts a)))
      (DConfig (ca_noDiscovery a) (cc_retries (ca_opts a)) n) _ (cc_retries (ca_opts a)) (fun s => base_summary elapsed ns (x_b s)) des xes broken Hsize)
      as (es1 & es2 & err & H1 & H2 & H3 & H4 & H5).
    exists a, n. eexists. exists report, es1, es2, aes, [], err. split; [reflexivity|]. split; [exact Ha|]. split; [exact Hmain|].
    split; [exact H1|]. split; [now rewrite app_nil_r|]. split; [exact H2|].
    cbn [transfer]. split; [exact H3|]. split; [cbn [rr_stderr]; f_equal; exact H4|]. split; [exact Hr|]. split; [exact H5|].
    exact (fixed_lines (XConfig (Z.to_nat (cc_size (ca_opts a))) (cc_retries (ca_opts a)) d_appnack) _ es1).
  - subst C.
    destruct (cat_run_adaptive _ _ (aimd_policy w r0 rto sample backoff)
      (show interest_text packet_text mark_text component_text (fun k => found (d_run (DConfig (ca_noDiscovery a) (cc_retries (ca_opts a)) n) des) ++ [segment_comp cv k])
         (discovery_name n) (cc_quiet (ca_opts a)) (cc_verbose (ca_opts a)))
      (failure_text uri data_text metadata_error final_error range_error (fun k => found (d_run (DConfig (ca_noDiscovery a) (cc_retries (ca_opts a)) n) des) ++ [segment_comp cv k])
         (discovery_name n) (cc_retries (ca_opts a)))
      (DConfig (ca_noDiscovery a) (cc_retries (ca_opts a)) n) (cc_retries (ca_opts a)) (cc_ignoreMarks (ca_opts a)) (cc_disableCwa (ca_opts a))
      w_cwnd w_ssthresh (adaptive_text elapsed rtts) des aes broken)
      as (es1 & es2 & err & H1 & H2 & H3 & H4 & H5).
    exists a, n. eexists. exists report, xes, [], es1, es2, err. split; [reflexivity|]. split; [exact Ha|]. split; [exact Hmain|].
    split; [now rewrite app_nil_r|]. split; [exact H1|]. split; [exact H2|].
    cbn [transfer]. split; [exact H3|]. split; [cbn [rr_stderr]; f_equal; exact H4|]. split; [exact Hr|]. split; [exact H5|].
    exact (adaptive_lines (aimd_policy w r0 rto sample backoff)
      (AConfig (cc_retries (ca_opts a)) (cc_ignoreMarks (ca_opts a)) (cc_disableCwa (ca_opts a)) d_appnack) _ _ _ es1).
  - subst C.
    destruct (cat_run_adaptive _ _ (cubic_policy cbrt pow3 w r0 srtt rto sample backoff)
      (show interest_text packet_text mark_text component_text (fun k => found (d_run (DConfig (ca_noDiscovery a) (cc_retries (ca_opts a)) n) des) ++ [segment_comp cv k])
         (discovery_name n) (cc_quiet (ca_opts a)) (cc_verbose (ca_opts a)))
      (failure_text uri data_text metadata_error final_error range_error (fun k => found (d_run (DConfig (ca_noDiscovery a) (cc_retries (ca_opts a)) n) des) ++ [segment_comp cv k])
         (discovery_name n) (cc_retries (ca_opts a)))
      (DConfig (ca_noDiscovery a) (cc_retries (ca_opts a)) n) (cc_retries (ca_opts a)) (cc_ignoreMarks (ca_opts a)) (cc_disableCwa (ca_opts a))
      cw_cwnd cw_ssthresh (adaptive_text elapsed rtts) des aes broken)
      as (es1 & es2 & err & H1 & H2 & H3 & H4 & H5).
    exists a, n. eexists. exists report, xes, [], es1, es2, err. split; [reflexivity|]. split; [exact Ha|]. split; [exact Hmain|].
    split; [now rewrite app_nil_r|]. split; [exact H1|]. split; [exact H2|].
    cbn [transfer]. split; [exact H3|]. split; [cbn [rr_stderr]; f_equal; exact H4|]. split; [exact Hr|]. split; [exact H5|].
    exact (adaptive_lines (cubic_policy cbrt pow3 w r0 srtt rto sample backoff)
      (AConfig (cc_retries (ca_opts a)) (cc_ignoreMarks (ca_opts a)) (cc_disableCwa (ca_opts a)) d_appnack) _ _ _ es1).
Qed.

(** acceptable options are not answered *)
Lemma acceptable_go a n r : acceptable parse_name face_error writable a n ->
  ~ answer usage help_text version_text parse_name face_error writable ms_text initial_rto backoff_factor (Cmd false false a) r.
Proof.
  intros [H1 H2 H3 H4 H5] H. inversion H; subst; try congruence.
  - match goal with H : unacceptable _ _ |- _ => exact (H2 _ H) end.
  - destruct H5 as [H5|H5]; [congruence|]. match goal with H : In _ [_; _] |- _ => destruct (H5 _ H) as [E|E]; congruence end.
Qed.

(** without --verbose *)
Lemma program_silent a n des xes aes broken r :
  program (Cmd false false a) des xes aes broken = Some r ->
  acceptable parse_name face_error writable a n -> cc_verbose (ca_opts a) = false ->
  exists told err,
    rr_stderr r = told ++ err /\
    (cc_quiet (ca_opts a) = true -> told = []) /\
    match rr_status r with
    | None => err = []
    | Some s => if s =? 0 then err = [] else exists what, err = str "ERROR: " ++ what ++ nl
    end /\
    exists j xes1 xes2 aes1 aes2,
      cat_main (fun s => match parse_name s with inl _ => false | inr _ => true end) writable (Parsed false false (ca_opts a)) = Proceed j /\
      xes = xes1 ++ xes2 /\ aes = aes1 ++ aes2 /\
      let '(h, _, _) := transfer j xes1 aes1 in
      let dh := d_run (DConfig (ca_noDiscovery a) (cc_retries (ca_opts a)) n) des in
      cc_quiet (ca_opts a) = false ->
      exists texts, told = concat texts /\
        Z.of_nat (List.length texts) = if existsb is_dsuccess dh then completions h else 0.
Proof.
  intros Hr Ha Hv. pose proof (program_spec (Cmd false false a) des xes aes broken) as H. rewrite Hr in H.
  destruct H as [H|H]; [now apply (acceptable_go a n) in H|].
  destruct H as (a' & n' & j & report & xes1 & xes2 & aes1 & aes2 & err & E & Ha' & Hm & Ex & Ea & _ & H).
  injection E as <-. assert (n' = n) as -> by (pose proof (ok_name _ _ _ _ _ Ha); pose proof (ok_name _ _ _ _ _ Ha'); congruence).
  destruct (transfer j xes1 aes1) as [[h w] m] eqn:Et. cbv zeta in H. destruct H as (_ & He & Hrep & Hend & Ht).
  rewrite Hv in Hrep, He. rewrite Hrep in He. cbn [app] in He. eexists. exists err. split; [exact He|]. split; [|split].
  - intros Hq. rewrite Hq. apply show_quiet.
  - revert Hend. generalize (rr_status r). intros s Hend. destruct Hend; cbn; try reflexivity; eexists; reflexivity.
  - exists j, xes1, xes2, aes1, aes2. rewrite Et. split; [exact Hm|]. split; [exact Ex|]. split; [exact Ea|]. cbv zeta. intros Hq. rewrite Hq, show_normal.
    eexists. split; [reflexivity|]. unfold summaries at 1. rewrite flat_map_app, app_length, Nat2Z.inj_add.
    assert (Hd : forall des', flat_map (fun x => match x with MSummary t => [t] | _ => [] end)
              (md_run (DConfig (ca_noDiscovery a) (cc_retries (ca_opts a)) n) des') = []).
    { intros des'. unfold md_run. destruct (d_skip _); [reflexivity|]. generalize (d_start (DConfig (ca_noDiscovery a) (cc_retries (ca_opts a)) n)).
      induction des' as [|e des' IH]; intros st; [reflexivity|]. cbn [md_from]. rewrite flat_map_app, IH, app_nil_r.
      unfold md_step. destruct (f_phase (fst st)); try reflexivity. destruct (negb _); [reflexivity|]. destruct e; try reflexivity.
      cbn. destruct (metadata_of p) as [q|]; [destruct (ends_with_version q)|]; reflexivity. }
    rewrite Hd. cbn [List.length]. destruct (existsb is_dsuccess _); [|reflexivity]. exact (t_summaries _ _ _ _ _ Ht).
Qed.
End Program.
