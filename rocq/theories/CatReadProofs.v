(** ndncatchunks as a program, with the texts of CatTextSpec. *)
From Verif Require Import Base BaseFacts TlvModel PipelineBase PipelineSpec FetcherModel FixedModel FixedSpec AdaptiveModel WindowModel ConsumerModel CatchunksModel
  PutchunksModel DiscoverModel DiscoverSpec DiscoverProofs ExitModel Double DumpModel PingModel DecimalModel ChunksTextModel PeekRunModel CatMsgModel OptionsModel
  CatLinesSpec CatFailSpec CatRunModel CatTextSpec CatTextProofs CatRunSpec CatRunProofs.
From Coq Require Import String List.
Import ListNotations.
Local Open Scope Z_scope.
Local Open Scope list_scope.
Local Opaque str to_string.

(** ** only the discovery tells a version, and it has a name *)
Notation good := (Forall proper).
Lemma good_nil : good [].
Proof. constructor. Qed.
Lemma good_cons x l : proper x -> good l -> good (x :: l).
Proof. now constructor. Qed.
Lemma good_app a b : good a -> good b -> good (a ++ b).
Proof. intros. apply Forall_app. now split. Qed.
Local Hint Resolve good_nil good_cons good_app : good.
Local Hint Extern 1 (proper _) => (unfold proper; discriminate) : good.
Local Ltac g := repeat match goal with
  | |- good (if ?b then _ else _) => destruct b
  | |- good (let '(_, _) := ?x in _) => destruct x
  | |- good match ?x with _ => _ end => destruct x
  | |- good (_ ++ _) => apply good_app
  | |- good (_ :: _) => apply good_cons; [unfold proper; discriminate|]
  | |- good [] => apply good_nil
  end; auto with good.

Section Fixed.
Variable C : xconfig.
Variable summary : xstate -> text.
Lemma gx_fetch s : good (mx_fetchNext s).
Proof. unfold mx_fetchNext. g. Qed.
Lemma gx_doRun k : forall i s, good (mx_doRun C k i s).
Proof.
  induction k as [|k IH]; intros i s; cbn [mx_doRun]; [constructor|]. apply good_app; [apply gx_fetch|].
  destruct (fetchNextSegment C i s) as [s' ok]. destruct ok; [apply IH|constructor].
Qed.
Lemma gx_advance s : good (mx_advance summary s).
Proof. unfold mx_advance. destruct (b_allReceived (x_b s)); [g|apply gx_fetch]. Qed.
Lemma gx_data seg d s : good (mx_handleData C summary seg d s).
Proof.
  unfold mx_handleData. destruct (b_stopping (x_b s)); [constructor|]. apply good_cons; [unfold proper; discriminate|].
  destruct (xc_cbThrows C d); [constructor|]. destruct (b_hasFbi _); [apply gx_advance|]. destruct (d_fbi d); [apply gx_advance| |constructor].
  destruct (x_learn n _) as [[l o] e]. destruct e; [constructor|apply gx_advance].
Qed.
Lemma gx_reacts i seg d b os : forall s, good (mx_reacts C summary i seg d b s os).
Proof.
  induction os as [|o os IH]; intros s; cbn [mx_reacts]; [constructor|]. apply good_app; [|apply IH].
  destruct o; cbn [mx_react]; try apply gx_data; g.
Qed.
Lemma gx_step s e : good (mx_step C summary s e).
Proof.
  assert (H : forall i d fe, good (mx_slotEvent C summary i d fe s)).
  { intros i d fe. unfold mx_slotEvent. destruct (nth_error (x_slots s) i) as [[[f seg]|]|]; try constructor.
    destruct (f_step (x_fconfig C) f fe) as [f' os]. apply gx_reacts. }
  unfold mx_step. destruct (x_crashed s); [constructor|]. destruct e; auto with good.
Qed.
Lemma gx_run es : good (mx_run C summary es).
Proof.
  apply good_app; [apply gx_doRun|]. generalize (x_doRun C (xc_size C) 0 (x_init C)).
  induction es as [|e es IH]; intros s; cbn [mx_from]; [constructor|]. apply good_app; [apply gx_step|apply IH].
Qed.
End Fixed.

Section Adaptive.
Context {W R : Type}.
Variable P : policy W R.
Variable C : aconfig.
Variables cwnd ssthresh : W -> f64.
Variable summary : @astate W R -> text.
Notation st := (@astate W R).
Lemma ga_send seg retx (s : st) : good (ma_sendInterest C seg retx s).
Proof. unfold ma_sendInterest. destruct retx; g. Qed.
Lemma ga_one (s : st) : good (ma_sendOne C s).
Proof. unfold ma_sendOne. destruct (a_retxq _); [destruct (b_getNext _)|]; apply ga_send. Qed.
Lemma ga_sched (s : st) : good (ma_schedulePackets P C s).
Proof.
  unfold ma_schedulePackets. generalize (if a_nInFlight s <? 0 then emit OAssert s else s). intros s1.
  generalize (Z.to_nat (p_floor P (a_cwnd s1) - a_nInFlight s1)). intros n. revert s1.
  induction n as [|n IH]; intros s1; cbn [ma_iter]; [constructor|]. apply good_app; [apply ga_one|apply IH].
Qed.
Lemma ga_timeout seg (s : st) : good (ma_recordTimeout P C cwnd ssthresh seg s).
Proof. unfold ma_recordTimeout. g. Qed.
Lemma ga_adapt seg d (s : st) : good (ma_adaptWindow P C cwnd seg d s).
Proof. unfold ma_adaptWindow. g. Qed.
Lemma ga_step (s : st) e : good (ma_step P C cwnd ssthresh summary s e).
Proof.
  pose proof ga_sched as Hs. pose proof ga_timeout as Ht. pose proof ga_adapt as Ha.
  assert (Hd : forall seg d (s : st), good (ma_handleData P C cwnd summary seg d s)).
  { intros seg d s1. unfold ma_handleData. destruct (isStopping s1); [constructor|]. destruct (learnFbi d s1) as [s2 c].
    destruct (negb c); [constructor|]. destruct (kget seg (a_segs s2)); [|constructor]. apply good_cons; [unfold proper; discriminate|].
    apply good_app; [apply Ha|]. destruct (a_crashed _); [constructor|]. destruct (b_allReceived _); [g|apply Hs]. }
  assert (Hn : forall seg r (s : st), good (ma_handleNack P C cwnd ssthresh seg r s)).
  { intros seg r s1. unfold ma_handleNack. destruct (isStopping s1); [constructor|]. apply good_cons; [unfold proper; discriminate|].
    destruct r; try constructor. destruct (a_crashed _); [constructor|]. apply good_app; [apply Ht|apply Hs]. }
  assert (Hl : forall seg (s : st), good (ma_handleLifetimeExpiration P C cwnd ssthresh seg s)).
  { intros seg s1. unfold ma_handleLifetimeExpiration. destruct (isStopping s1); [constructor|].
    destruct (a_crashed _); [constructor|]. apply good_app; [apply Ht|apply Hs]. }
  unfold ma_step. destruct (a_crashed s); [constructor|]. destruct e; try constructor.
  1-3: unfold ma_fromFace; destruct (kget seg (a_segs s)) as [i|]; [destruct (si_live i)|]; try constructor; auto.
  destruct (a_timer s); [|constructor]. unfold ma_checkRto. destruct (isStopping _); [constructor|].
  destruct (fold_left _ _ _) as [[s1 has] high]. destruct (a_crashed s1); [constructor|]. destruct has; [|constructor]. apply good_app; [apply Ht|apply Hs].
Qed.
Lemma ga_run es : good (ma_run P C cwnd ssthresh summary es).
Proof.
  apply good_app.
  - unfold ma_start. destruct (b_allReceived _); [g|apply ga_sched].
  - generalize (doRun P C (a_init P)). induction es as [|e es IH]; intros s; cbn [ma_from]; [constructor|]. apply good_app; [apply ga_step|apply IH].
Qed.
End Adaptive.

Lemma gd_run dc des : good (md_run dc des).
Proof.
  unfold md_run. destruct (d_skip dc). { unfold md_run. g. }
  generalize (d_start dc). induction des as [|e des IH]; intros stt; cbn [md_from]; [constructor|]. apply good_app; [|apply IH].
  unfold md_step. destruct (f_phase (fst stt)); try constructor. destruct (negb _); [constructor|]. destruct e; try (repeat constructor; unfold proper; discriminate).
  apply good_cons; [unfold proper; discriminate|]. destruct (metadata_of p) as [n|]; [|constructor]. destruct (ends_with_version n) eqn:E; constructor; [|constructor].
  intros H. injection H as ->. discriminate E.
Qed.

Section Program.
Variables (uri : name -> text) (interest_text : name -> Z -> text) (packet_text : packet -> text) (data_text : N -> data -> text)
  (mark_text : data -> text) (component_text : component -> text) (metadata_error : packet -> text) (final_error : data -> text)
  (range_error : text).
Variables (usage help_text version_text : text) (parse_name : string -> text + name) (face_error : option text)
  (writable : string -> bool) (ms_text : Z -> text) (initial_rto backoff_factor : Z).
Variable elapsed : Z -> text.
Context {R : Type}.
Variables (r0 : R) (srtt rto : R -> Z) (sample : Z -> Z -> R -> R) (backoff : R -> R) (rtts : R -> option (Z * Z * Z))
  (cbrt pow3 : f64 -> f64).
Variables (cv : convention) (ns : Z).
Notation program := (catchunks_program uri interest_text packet_text data_text mark_text component_text metadata_error final_error range_error
  usage help_text version_text parse_name face_error writable ms_text initial_rto backoff_factor elapsed r0 srtt rto sample backoff rtts cbrt pow3 cv ns).
Notation transfer := (transfer elapsed r0 srtt rto sample backoff rtts cbrt pow3 ns).

Lemma transfer_good j xes aes h w m : transfer j xes aes = (h, w, m) -> good m.
Proof.
  destruct j; cbn [CatRunSpec.transfer]; intros H; injection H as _ _ <-; [apply gx_run|apply ga_run|apply ga_run].
Qed.

Lemma program_reads c des xes aes broken :
  match program c des xes aes broken with
  | None => exists a, c = Cmd false false a /\ ~ (representable (cc_minRto (ca_opts a)) /\ representable (cc_maxRto (ca_opts a)))
  | Some r =>
      answer usage help_text version_text parse_name face_error writable ms_text initial_rto backoff_factor c r \/
      exists a n j report lines xes1 xes2 aes1 aes2 err,
        c = Cmd false false a /\ acceptable parse_name face_error writable a n /\
        cat_main (fun s => match parse_name s with inl _ => false | inr _ => true end) writable (Parsed false false (ca_opts a)) = Proceed j /\
        xes = xes1 ++ xes2 /\ aes = aes1 ++ aes2 /\ (rr_status r = None -> (if is_fixed j then xes2 = [] else aes2 = [])) /\
        let o := ca_opts a in
        let dc := DConfig (ca_noDiscovery a) (cc_retries o) n in
        let dh := d_run dc des in
        let '(h, working, m) := transfer j xes1 aes1 in
        let started := existsb is_dsuccess dh in
        let sname k := found dh ++ [segment_comp cv k] in
        let mname := discovery_name n in
        rr_stdout r = (if started then catchunks_stdout h else []) /\
        rr_stderr r = report ++ concat lines ++ err /\
        (if cc_verbose o then parameters ms_text initial_rto backoff_factor a report else report = []) /\
        Forall2 (reads interest_text packet_text mark_text component_text sname mname)
          (filter (wanted (cc_quiet o) (cc_verbose o)) (md_run dc des ++ if started then m else [])) lines /\
        ends (fun f => discovery_explained (cc_retries o) dh f \/
                       (started = true /\ pipeline_explained (reason_true j (cc_retries o)) (cc_retries o) h f))
          (says_why uri data_text metadata_error final_error sname mname (cc_retries o))
          (catchunks_status dh working h) broken (rr_status r) err /\
        tells (cc_retries o) (is_fixed j) [] m h
  end.
Proof.
  pose proof (program_spec uri interest_text packet_text data_text mark_text component_text metadata_error final_error range_error
    usage help_text version_text parse_name face_error writable ms_text initial_rto backoff_factor elapsed r0 srtt rto sample backoff rtts cbrt pow3 cv ns
    c des xes aes broken) as H.
  destruct (program c des xes aes broken) as [r|]; [|exact H]. destruct H as [H|H]; [now left|right].
  destruct H as (a & n & j & report & xes1 & xes2 & aes1 & aes2 & err & E & Ha & Hm & Ex & Ea & Hs & H).
  destruct (transfer j xes1 aes1) as [[h w] m] eqn:Et. cbv zeta in H. destruct H as (Ho & He & Hrep & Hend & Ht).
  assert (Hg : good (md_run (DConfig (ca_noDiscovery a) (cc_retries (ca_opts a)) n) des ++
    if existsb is_dsuccess (d_run (DConfig (ca_noDiscovery a) (cc_retries (ca_opts a)) n) des) then m else [])).
  { apply good_app; [apply gd_run|]. destruct (existsb _ _); [exact (transfer_good _ _ _ _ _ _ Et)|constructor]. }
  destruct (show_reads interest_text packet_text mark_text component_text
    (fun k => found (d_run (DConfig (ca_noDiscovery a) (cc_retries (ca_opts a)) n) des) ++ [segment_comp cv k]) (discovery_name n)
    (cc_quiet (ca_opts a)) (cc_verbose (ca_opts a)) _ Hg) as (lines & Hl & Hr).
  exists a, n, j, report, lines, xes1, xes2, aes1, aes2, err. do 6 (split; [assumption|]). rewrite Et. cbv zeta.
  split; [exact Ho|]. split; [now rewrite He, Hl|]. split; [exact Hrep|]. split; [exact Hr|]. split; [|exact Ht].
  destruct Hend.
  - now apply N_running.
  - now apply N_broken.
  - now apply N_success.
  - destruct H1 as (seg & d & ->). eapply N_nack; [assumption|eassumption|]. now apply why_reads.
  - eapply N_failure; [assumption|eassumption| |assumption]. apply why_reads.
    destruct H0 as [H0|[_ H0]]; destruct f as [[| | | |]| | | | | | | |]; try exact I; exact H0.
Qed.
End Program.
