(** ndncatchunks and ndnputchunks as programs that talk to each other. *)
From Verif Require Import Base BaseFacts TlvModel TlvProofs PipelineBase PipelineSpec FetcherModel FixedModel FixedSpec AdaptiveModel WindowModel CatchunksModel CatchunksSpec
  PutchunksModel PutchunksSpec PutchunksProofs DiscoverModel DiscoverSpec ChunksTheorems ExitModel ExitProofs ExitTheorems ProgressSpec FixedEndSpec AdaptiveEnd TransferTheorems WindowTheorems Double DumpModel PingModel DecimalModel ChunksTextModel PeekRunModel CatMsgModel OptionsModel
  CatLinesSpec CatLinesFixed CatFailSpec CatRunModel CatTextSpec CatRunSpec CatRunProofs CatSummary CatReadProofs
  DissectSpec ServeModel ServeSpec ServeProofs ServeProofs2 PutRunModel PutRunSpec PutRunProofs TransferRunSpec CubicRunSpec CubicProgress.
From Coq Require Import String List Lia ZArith.
Import ListNotations.
Local Open Scope Z_scope.
Local Open Scope list_scope.
Local Opaque str unlines to_string.

(** ** What ndnputchunks sends is published *)
Lemma versioned_unique cv now n p1 v1 p2 v2 : versioned cv now n p1 v1 -> versioned cv now n p2 v2 -> p1 = p2 /\ v1 = v2.
Proof.
  intros H1 H2. destruct H1 as [p1 v1 E1 V1|V1]; inversion H2 as [p v E2 V2 X Y|V2 X Y].
  - subst. apply app_inj_tail in E2. exact E2.
  - subst. exfalso. apply V1. now apply (V2 p1).
  - subst. exfalso. apply V2. now apply (V1 p2).
  - subst. auto.
Qed.

Lemma chosen_unique d s c1 c2 : chosen_convention d s c1 -> chosen_convention d s c2 -> c1 = c2.
Proof.
  pose proof str_conv_differ as D. destruct str_nonempty_conv as (E1 & E2 & E3 & E4 & E5 & E6).
  intros H1 H2. destruct H1 as [s C|s C|]; inversion H2; subst; try reflexivity.
  - exfalso. eapply D; eassumption.
  - exfalso. destruct C as [C|[C|C]]; congruence.
  - exfalso. eapply D; eassumption.
  - exfalso. destruct C as [C|[C|C]]; congruence.
  - exfalso. destruct H as [C|[C|C]]; congruence.
  - exfalso. destruct H as [C|[C|C]]; congruence.
Qed.

Section Sent.
Variable digest : packet -> component.
Variable sign : packet -> list N * list N.
Variable name_uri : name -> text.
Variable comp_uri : component -> text.
Variable interest_text : interest -> text.
Variable data_text : packet -> text.
Variable usage version : text.
Variable default_cv : convention.
Variable parse_signing : text -> signing.
Variable parse_name : text -> name + text.
Variable start_error : option text.
Variable load_error : name -> list N -> option text.
Variable put_error : text.
Notation PROGRAM := (put_program digest sign name_uri comp_uri interest_text data_text usage version default_cv parse_signing parse_name start_error load_error put_error).

Lemma put_sent w s r x : In x (cp_sent (cp_put sign w s r)) -> In x (cp_sent s) \/ x = r.
Proof.
  unfold cp_put. destruct (cp_status s); [now left|]. destruct (reply_fits sign w r); cbn [cp_sent]; [|now left].
  intros H. apply in_app_or in H. destruct H as [H|[H|[]]]; auto.
Qed.
Lemma say_sent t s : cp_sent (cp_say t s) = cp_sent s.
Proof. unfold cp_say. destruct (cp_status s); reflexivity. Qed.

Section Producer.
Variables (u : putopts) (cv : convention) (now0 : N) (o : popts) (prefix : name) (input : list N).
Hypothesis Hnow : u64 now0.
Hypothesis Hsize : (0 < po_size o)%nat.
Notation P := (make_producer cv now0 o prefix input).
Definition comes_from (P : producer) (x : reply) : Prop := exists now i, In x (producer_replies digest cv now P i).

Lemma answers_sent l x : forall s,
  In x (cp_sent (fold_left (answer_step sign interest_text data_text u cv now0 o prefix input) l s)) -> In x (cp_sent s) \/ In x (map snd l).
Proof.
  induction l as [|y l IH]; intros s H; cbn [fold_left map] in *; [now left|]. apply IH in H. destruct H as [H|H]; [|right; now right].
  unfold answer_step in H. apply put_sent in H. rewrite say_sent in H. destruct H as [H|H]; [now left|right; now left].
Qed.
Lemma step_sent s e x : In x (cp_sent (ur_step digest sign name_uri interest_text data_text put_error u cv P s e)) ->
  In x (cp_sent s) \/ comes_from P x.
Proof.
  unfold ur_step. destruct (cp_status s) eqn:St; [now left|]. destruct e as [e|what]; [|now left]. cbv zeta.
  assert (G : In x (cp_sent (cp_step digest sign name_uri interest_text data_text u cv P s e)) -> In x (cp_sent s) \/ comes_from P x).
  { unfold cp_step. rewrite St. destruct e as [now w i|reason]; [|now left]. rewrite (onInterest_eq digest sign interest_text data_text u cv now0 Hnow o Hsize).
    intros H. apply answers_sent in H. destruct H as [H|H]; [now left|right]. exists now, i. cbn [event_answers] in H. rewrite map_map in H. cbn [snd] in H.
    now rewrite map_id in H. }
  destruct (cp_status (cp_step _ _ _ _ _ _ _ _ _ _)) as [[|[| |]|]|]; auto.
Qed.
Lemma run_sent es x : forall s, In x (cp_sent (fold_left (ur_step digest sign name_uri interest_text data_text put_error u cv P) es s)) ->
  In x (cp_sent s) \/ comes_from P x.
Proof.
  induction es as [|e es IH]; intros s H; cbn [fold_left] in H; [now left|]. apply IH in H. destruct H as [H|H]; [|now right]. now apply step_sent in H.
Qed.
End Producer.

Lemma program_published a cv n now input es plain v d : u64 now ->
  put_accepts default_cv parse_signing a cv -> parse_name (ua_prefix a) = inl n -> versioned cv now n plain v ->
  let P := make_producer cv now (POpts (N.to_nat (ua_size a)) (ua_fresh a)) n input in
  pr_prefix P = plain /\ pr_vprefix P = plain ++ [v] /\ is_version v = true /\
  (In (RpData d) (uo_sent (PROGRAM (inr a) now input es)) -> published digest cv P d).
Proof.
  intros Hnow A Pn V P. destruct (versioned_spec cv now (POpts (N.to_nat (ua_size a)) (ua_fresh a)) n input Hnow) as (v' & V1 & V2 & V3). fold P in V1, V3.
  destruct (versioned_unique _ _ _ _ _ _ _ V V3) as [-> ->]. split; [reflexivity|]. split; [exact V1|]. split; [exact V2|].
  destruct A as [A1 A2 A3 A4 A5 A6 A7 A8]. unfold put_program. rewrite A1, A2. destruct (ua_prefix a) as [|ch p] eqn:Ep; [congruence|].
  pose proof (convention_spec default_cv (ua_conv a)) as C. destruct (convention_of default_cv (ua_conv a)) as [cv'|]; [|contradiction (C cv)].
  assert (cv' = cv) as ->.
  { exact (chosen_unique _ _ _ _ C A4). }
  destruct (Z.ltb_spec (ua_fresh a) 0); [lia|]. destruct ((ua_size a <? 1)%N || (8800 <? ua_size a)%N) eqn:Sz.
  { apply orb_prop in Sz. destruct Sz as [Sz|Sz]; apply N.ltb_lt in Sz; lia. }
  rewrite A7. assert (Q : ua_quiet a && ua_verbose a = false) by (apply andb_false_iff; exact A8). rewrite Q.
  unfold put_go. destruct start_error; [intros []|]. rewrite Ep, Pn. cbv zeta. fold P. destruct (load_error (pr_vprefix P) input); [intros []|].
  unfold ur_result. cbn [uo_sent]. intros G. apply run_sent in G; [|exact Hnow|cbn; lia]. destruct G as [G|G]; [|exact G].
  unfold cp_start in G. destruct G.
Qed.
End Sent.

(** ** The course of a run only grows *)
Lemma x_history_app C a b : exists l, x_history (x_run C (a ++ b)) = x_history (x_run C a) ++ l.
Proof.
  unfold x_run. rewrite fold_left_app. destruct (X_doRun C (xc_size C) 0 (x_init C) (KX_init C)) as [_ K0].
  destruct (X_from C (fun _ => []) a _ K0) as [_ K1]. destruct (X_from C (fun _ => []) b _ K1) as [(l & E & _) _].
  exists l. unfold x_history. now rewrite E, rev_app_distr, rev_involutive.
Qed.
Lemma d_data c es p : In (DoGotData p) (d_run c es) -> In (DeData p) es.
Proof.
  unfold d_run. destruct (d_skip c); [intros [H|[]]; discriminate|].
  assert (G : forall st, In (DoGotData p) (snd (fold_left (d_step c) es st)) -> In (DoGotData p) (snd st) \/ In (DeData p) es).
  { induction es as [|e es IH]; intros st H; [now left|]. cbn [fold_left] in H. apply IH in H. destruct H as [H|H]; [|right; now right].
    unfold d_step in H. destruct (f_step (d_fconfig c) (fst st) (fetch_event e)) as [f os]. cbn [snd] in H. apply in_app_or in H. destruct H as [H|H]; [now left|].
    right. left. apply in_flat_map in H. destruct H as (o & _ & H). destruct o, e; cbn in H; try contradiction; destruct H as [H|H]; try contradiction; try discriminate; try congruence.
    revert H. unfold d_handleData. destruct (metadata_of p0) as [q|]; [destruct (ends_with_version q)|]; discriminate. }
  intros H. apply G in H. destruct H as [[H|[]]|H]; [discriminate|exact H].
Qed.

Lemma job_shape name_ok writable o j : cat_main name_ok writable (Parsed false false o) = Proceed j ->
  match j with
  | JFixed C => exists size, (0 < size)%nat /\ C = XConfig size (cc_retries o) d_appnack
  | JAimd C _ | JCubic C _ => C = catchunks_config (cc_retries o) (cc_ignoreMarks o) (cc_disableCwa o)
  end.
Proof.
  unfold cat_main. cbv zeta. cbn [checks].
  destruct (empty (cc_prefix o)); [discriminate|]. destruct (badConvention (cc_nameConv o)); [discriminate|].
  destruct (cc_lifetime o <? 0); [discriminate|]. destruct ((cc_retries o <? -1) || (1024 <? cc_retries o)); [discriminate|].
  destruct (cc_quiet o && cc_verbose o); [discriminate|]. destruct ((cc_size o <? 1) || (1024 <? cc_size o)) eqn:Es; [discriminate|].
  destruct (cc_rtoK o <? 0); [discriminate|]. destruct (fits64 (cc_minRto o * 1000000)); [|discriminate]. cbn [negb].
  destruct (cc_minRto o * 1000000 <? 0); [discriminate|]. destruct (fits64 (cc_maxRto o * 1000000)); [|discriminate]. cbn [negb].
  destruct (cc_maxRto o * 1000000 <? cc_minRto o * 1000000); [discriminate|]. destruct (name_ok (cc_prefix o)); [|discriminate]. cbn [negb].
  destruct (String.eqb (cc_type o) "fixed"). { intros H. injection H as <-. exists (Z.to_nat (cc_size o)). split; [lia|reflexivity]. }
  destruct (String.eqb (cc_type o) "aimd"), (String.eqb (cc_type o) "cubic"); cbn [orb]; try discriminate;
    destruct (negb (empty (cc_logCwnd o)) && negb (writable (cc_logCwnd o))); try discriminate;
    destruct (negb (empty (cc_logRtt o)) && negb (writable (cc_logRtt o))); try discriminate; intros H; injection H as <-; reflexivity.
Qed.

Lemma prefix_nil {A} (l : list A) : is_prefix [] l. Proof. now exists l. Qed.
Lemma dsuccess_in dh : existsb is_dsuccess dh = true -> exists v, In (DoSuccess v) dh.
Proof. intros H. apply existsb_exists in H. destruct H as (x & H1 & H2). destruct x; try discriminate. eauto. Qed.

Section Composed.
Variable digest : packet -> component.
Variable P : producer.
Variables (pcv : convention) (now : N) (o : popts) (pn : name) (input : list N).
Hypothesis HP : P = make_producer pcv now o pn input.
Hypothesis Hnow : u64 now.
Hypothesis Hsize : (0 < po_size o)%nat.
Hypothesis Hinput : u64 (N.of_nat (List.length input) + 1).
Hypothesis Hok : encodable (pr_vprefix P).
Variables (sent : list reply) (plain : name) (v : component).
Hypothesis Hsent : forall d, In (RpData d) sent -> published digest pcv P d.
Hypothesis Hplain : pr_prefix P = plain.
Hypothesis Hv : pr_vprefix P = plain ++ [v].

Lemma fits_client a n des cv h retries : fits_name plain v a n ->
  let dc := DConfig (ca_noDiscovery a) retries n in
  forges_nothing digest sent cv a n des (d_run dc des) h -> client_of digest pcv P dc (d_run dc des).
Proof.
  intros F dc N. destruct F as [|F1 F2]; [left; cbn; now rewrite Hv|]. right. cbn [dc_prefix dc_disable]. split; [cbn; now rewrite Hplain|]. split; [exact F1|]. split.
  - intros pre w E. unfold is_version. now rewrite (F2 pre w E).
  - intros p H. apply d_data in H. destruct (fn_metadata _ _ _ _ _ _ _ _ N p H) as [H1 H2]. split; [now apply Hsent|exact H2].
Qed.
Lemma forges_honest a n des cv dh h1 l vname : forges_nothing digest sent cv a n des dh (h1 ++ l) -> In (DoSuccess vname) dh ->
  honest_network digest pcv P cv vname (ca_fresh a) h1.
Proof.
  intros N D seg d H. destruct (fn_segment _ _ _ _ _ _ _ _ N vname D seg d (in_or_app _ _ _ (or_introl H))) as (H1 & p & H2 & H3 & H4).
  split; [exact H1|]. exists p. auto.
Qed.

(** texts and environment of ndncatchunks *)
Variables (uri : name -> text) (interest_text : name -> Z -> text) (packet_text : packet -> text) (data_text : N -> data -> text)
  (mark_text : data -> text) (component_text : component -> text) (metadata_error : packet -> text) (final_error : data -> text)
  (range_error : text) (usage help_text version_text : text) (ms_text elapsed : Z -> text).
Variables (parse_name : string -> text + name) (face_error : option text) (writable : string -> bool).
Variables (initial_rto backoff_factor : Z) (R : Type) (r0 : R) (srtt rto : R -> Z) (sample : Z -> Z -> R -> R) (backoff : R -> R)
  (rtts : R -> option (Z * Z * Z)) (cbrt pow3 : f64 -> f64) (cv : convention) (ns : Z).
Notation ndncatchunks := (catchunks_program uri interest_text packet_text data_text mark_text component_text metadata_error final_error range_error
  usage help_text version_text parse_name face_error writable ms_text initial_rto backoff_factor elapsed r0 srtt rto sample backoff rtts cbrt pow3 cv ns).
Notation transfer := (transfer elapsed r0 srtt rto sample backoff rtts cbrt pow3 ns).
Notation main := (cat_main (fun s => match parse_name s with inl _ => false | inr _ => true end) writable).

Theorem composed a n j des xes aes broken r :
  ndncatchunks (Cmd false false a) des xes aes broken = Some r ->
  parse_name (cc_prefix (ca_opts a)) = inr n -> fits_name plain v a n ->
  main (Parsed false false (ca_opts a)) = Proceed j ->
  ~ In XeCancel xes -> ~ In AeCancel aes ->
  forges_nothing digest sent cv a n des (d_run (DConfig (ca_noDiscovery a) (cc_retries (ca_opts a)) n) des) (fst (fst (transfer j xes aes))) ->
  is_prefix (rr_stdout r) input /\ (rr_status r = Some 0 -> rr_stdout r = input).
Proof.
  intros Hr Pn F Hm Nx Na N.
  pose proof (program_reads uri interest_text packet_text data_text mark_text component_text metadata_error final_error range_error
    usage help_text version_text parse_name face_error writable ms_text initial_rto backoff_factor elapsed r0 srtt rto sample backoff rtts cbrt pow3 cv ns
    (Cmd false false a) des xes aes broken) as H.
  rewrite Hr in H. destruct H as [H|H].
  { inversion H; subst; (split; [apply prefix_nil|discriminate]). }
  destruct H as (a' & n' & j' & report & lines & xes1 & xes2 & aes1 & aes2 & err & E & Ha & Hm' & Ex & Ea & _ & H).
  injection E as <-. assert (n' = n) as -> by (pose proof (ok_name _ _ _ _ _ Ha); congruence).
  assert (j' = j) as -> by (pose proof (eq_trans (eq_sym Hm') Hm) as X; now injection X).
  clear Hm'. apply job_shape in Hm.
  pose proof (fits_client a n des cv _ _ F N) as Hc. set (dc := DConfig (ca_noDiscovery a) (cc_retries (ca_opts a)) n) in *.
  assert (G : forall h w, (forall vn, In (DoSuccess vn) (d_run dc des) -> is_prefix (catchunks_stdout h) input) ->
     (catchunks_status (d_run dc des) w h = Some 0 -> catchunks_stdout h = input) ->
     rr_stdout r = (if existsb is_dsuccess (d_run dc des) then catchunks_stdout h else []) ->
     (exists q s, ends q s (catchunks_status (d_run dc des) w h) broken (rr_status r) err) ->
     is_prefix (rr_stdout r) input /\ (rr_status r = Some 0 -> rr_stdout r = input)).
  { intros h w H1 H2 H3 (q & s & H4). destruct (existsb is_dsuccess (d_run dc des)) eqn:Ed.
    - destruct (dsuccess_in _ Ed) as (vn & D). rewrite H3. split; [exact (H1 vn D)|]. intros S. rewrite S in H4. apply H2. inversion H4; congruence.
    - rewrite H3. split; [apply prefix_nil|]. intros S. rewrite S in H4. exfalso. inversion H4 as [| |Z| |]; try congruence.
      unfold catchunks_status in Z. rewrite Ed in Z. destruct (existsb is_dfailure (d_run dc des)); discriminate. }
  destruct j as [C|C w|C w]; cbn [transfer] in H, N; cbn [fst] in N.
  - destruct Hm as (size & Hs & ->).
    set (C := XConfig size (cc_retries (ca_opts a)) d_appnack) in *.
    assert (N' : exists l, x_history (x_run C xes) = x_history (x_run C xes1) ++ l) by (rewrite Ex; apply x_history_app).
    destruct N' as (l & El). rewrite El in N.
    destruct H as (H1 & _ & _ & _ & H5 & _). apply (G (x_history (x_run C xes1)) (x_working (x_run C xes1))); [| |exact H1|eauto].
    + intros vn D. rewrite HP in Hok, Hc. destruct (e2e_fixed digest pcv now Hnow o Hsize pn input Hinput C xes1 dc des vn cv (ca_fresh a) Hs Hok Hc D) as [E1 _].
      apply (E1 _ []); [now rewrite app_nil_r|]. rewrite <- HP. exact (forges_honest _ _ _ _ _ _ _ _ N D).
    + rewrite HP in Hok, Hc. apply (transfer_fixed digest pcv now Hnow o Hsize pn input Hinput size (cc_retries (ca_opts a)) xes1 dc des cv (ca_fresh a)); auto.
      * intros X. apply Nx. rewrite Ex. apply in_or_app. now left.
      * intros vn D. rewrite <- HP. exact (forges_honest _ _ _ _ _ _ _ _ N D).
  - subst C. set (C := catchunks_config (cc_retries (ca_opts a)) (cc_ignoreMarks (ca_opts a)) (cc_disableCwa (ca_opts a))) in *.
    set (pol := aimd_policy w r0 rto sample backoff) in *.
    assert (N' : exists l, a_history (a_run pol C aes) = a_history (a_run pol C aes1) ++ l) by (rewrite Ea; apply history_app).
    destruct N' as (l & El). rewrite El in N.
    destruct H as (H1 & _ & _ & _ & H5 & _). apply (G (a_history (a_run pol C aes1)) (a_working (a_run pol C aes1))); [| |exact H1|eauto].
    + intros vn D. rewrite HP in Hok, Hc. destruct (e2e_adaptive digest pcv now Hnow o Hsize pn input Hinput pol C aes1 dc des vn cv (ca_fresh a) Hok Hc D) as [E1 _].
      apply (E1 _ []); [now rewrite app_nil_r|]. rewrite <- HP. exact (forges_honest _ _ _ _ _ _ _ _ N D).
    + rewrite HP in Hok, Hc. refine (transfer_adaptive digest pcv now Hnow o Hsize pn input Hinput _ _ pol _ _ _ aes1 dc des cv (ca_fresh a) _ Hok Hc _).
      * intros X. apply Na. rewrite Ea. apply in_or_app. now left.
      * intros vn D. rewrite <- HP. exact (forges_honest _ _ _ _ _ _ _ _ N D).
  - subst C. set (C := catchunks_config (cc_retries (ca_opts a)) (cc_ignoreMarks (ca_opts a)) (cc_disableCwa (ca_opts a))) in *.
    set (pol := cubic_policy cbrt pow3 w r0 srtt rto sample backoff) in *.
    assert (N' : exists l, a_history (a_run pol C aes) = a_history (a_run pol C aes1) ++ l) by (rewrite Ea; apply history_app).
    destruct N' as (l & El). rewrite El in N.
    destruct H as (H1 & _ & _ & _ & H5 & _). apply (G (a_history (a_run pol C aes1)) (a_working (a_run pol C aes1))); [| |exact H1|eauto].
    + intros vn D. rewrite HP in Hok, Hc. destruct (e2e_adaptive digest pcv now Hnow o Hsize pn input Hinput pol C aes1 dc des vn cv (ca_fresh a) Hok Hc D) as [E1 _].
      apply (E1 _ []); [now rewrite app_nil_r|]. rewrite <- HP. exact (forges_honest _ _ _ _ _ _ _ _ N D).
    + rewrite HP in Hok, Hc. refine (transfer_adaptive digest pcv now Hnow o Hsize pn input Hinput _ _ pol _ _ _ aes1 dc des cv (ca_fresh a) _ Hok Hc _).
      * intros X. apply Na. rewrite Ea. apply in_or_app. now left.
      * intros vn D. rewrite <- HP. exact (forges_honest _ _ _ _ _ _ _ _ N D).
Qed.
End Composed.

(** both programs *)
Section Both.
Variable digest : packet -> component.
Variables (sign : packet -> list N * list N) (name_uri : name -> text) (comp_uri : component -> text) (interest_line : interest -> text)
  (packet_line : packet -> text) (put_usage put_version : text) (default_cv : convention) (parse_signing : text -> signing)
  (parse_prefix : text -> name + text) (start_error : option text) (load_error : name -> list N -> option text) (put_error : text).
Variables (uri : name -> text) (interest_text : name -> Z -> text) (packet_text : packet -> text) (data_text : N -> data -> text)
  (mark_text : data -> text) (component_text : component -> text) (metadata_error : packet -> text) (final_error : data -> text)
  (range_error : text) (usage help_text version_text : text) (ms_text elapsed : Z -> text).
Variables (parse_name : string -> text + name) (face_error : option text) (writable : string -> bool).
Variables (initial_rto backoff_factor : Z) (R : Type) (r0 : R) (srtt rto : R -> Z) (sample : Z -> Z -> R -> R) (backoff : R -> R)
  (rtts : R -> option (Z * Z * Z)) (cbrt pow3 : f64 -> f64) (cv : convention) (ns : Z).
Notation ndncatchunks := (catchunks_program uri interest_text packet_text data_text mark_text component_text metadata_error final_error range_error
  usage help_text version_text parse_name face_error writable ms_text initial_rto backoff_factor elapsed r0 srtt rto sample backoff rtts cbrt pow3 cv ns).
Notation ndnputchunks := (put_program digest sign name_uri comp_uri interest_line packet_line put_usage put_version default_cv parse_signing parse_prefix
  start_error load_error put_error).
Notation transfer := (transfer elapsed r0 srtt rto sample backoff rtts cbrt pow3 ns).
Notation main := (cat_main (fun s => match parse_name s with inl _ => false | inr _ => true end) writable).

Theorem both_programs pa pcv pn now input pes plain v :
  (now < 2 ^ 64)%N -> (N.of_nat (List.length input) + 1 < 2 ^ 64)%N -> encodable (plain ++ [v]) ->
  put_accepts default_cv parse_signing pa pcv -> parse_prefix (ua_prefix pa) = inl pn -> versioned pcv now pn plain v ->
  forall a n j des xes aes broken r,
    ndncatchunks (Cmd false false a) des xes aes broken = Some r ->
    parse_name (cc_prefix (ca_opts a)) = inr n -> fits_name plain v a n ->
    main (Parsed false false (ca_opts a)) = Proceed j ->
    ~ In XeCancel xes -> ~ In AeCancel aes ->
    forges_nothing digest (uo_sent (ndnputchunks (inr pa) now input pes)) cv a n des
      (d_run (DConfig (ca_noDiscovery a) (cc_retries (ca_opts a)) n) des) (fst (fst (transfer j xes aes))) ->
    is_prefix (rr_stdout r) input /\ (rr_status r = Some 0 -> rr_stdout r = input).
Proof.
  intros Hnow Hin Henc A Pp V.
  pose proof (fun d => program_published digest sign name_uri comp_uri interest_line packet_line put_usage put_version default_cv parse_signing parse_prefix
    start_error load_error put_error pa pcv pn now input pes plain v d Hnow A Pp V) as H. cbv zeta in H.
  set (o := POpts (N.to_nat (ua_size pa)) (ua_fresh pa)) in *. set (P := make_producer pcv now o pn input) in *.
  assert (Hs : (0 < po_size o)%nat) by (pose proof (uk_size _ _ _ _ A); cbn; lia).
  destruct (H (Packet [] [] None 0)) as (H1 & H2 & _ & _). rewrite <- H2 in Henc.
  exact (composed digest P pcv now o pn input eq_refl Hnow Hs Hin Henc _ plain v (fun d => proj2 (proj2 (proj2 (H d)))) H1 H2
    uri interest_text packet_text data_text mark_text component_text metadata_error final_error range_error
    usage help_text version_text ms_text elapsed parse_name face_error writable initial_rto backoff_factor R r0 srtt rto sample backoff rtts cbrt pow3 cv ns).
Qed.
End Both.

(** ** Success *)
Lemma not_undefined name_ok writable o j : cat_main name_ok writable (Parsed false false o) = Proceed j ->
  representable (cc_minRto o) /\ representable (cc_maxRto o).
Proof.
  unfold cat_main. cbv zeta. cbn [checks].
  destruct (empty (cc_prefix o)); [discriminate|]. destruct (badConvention (cc_nameConv o)); [discriminate|].
  destruct (cc_lifetime o <? 0); [discriminate|]. destruct ((cc_retries o <? -1) || (1024 <? cc_retries o)); [discriminate|].
  destruct (cc_quiet o && cc_verbose o); [discriminate|]. destruct ((cc_size o <? 1) || (1024 <? cc_size o)) eqn:Es; [discriminate|].
  destruct (cc_rtoK o <? 0); [discriminate|]. destruct (fits64 (cc_minRto o * 1000000)) eqn:E1; [|discriminate]. cbn [negb].
  destruct (cc_minRto o * 1000000 <? 0); [discriminate|]. destruct (fits64 (cc_maxRto o * 1000000)) eqn:E2; [|discriminate].
  intros _. split; apply (proj1 (fits_spec (fun _ => []) _)); [exact E1|exact E2].
Qed.

Section Success.
Variables (uri : name -> text) (interest_text : name -> Z -> text) (packet_text : packet -> text) (data_text : N -> data -> text)
  (mark_text : data -> text) (component_text : component -> text) (metadata_error : packet -> text) (final_error : data -> text)
  (range_error : text) (usage help_text version_text : text) (ms_text elapsed : Z -> text).
Variables (parse_name : string -> text + name) (face_error : option text) (writable : string -> bool).
Variables (initial_rto backoff_factor : Z) (R : Type) (r0 : R) (srtt rto : R -> Z) (sample : Z -> Z -> R -> R) (backoff : R -> R)
  (rtts : R -> option (Z * Z * Z)) (cbrt pow3 : f64 -> f64) (cv : convention) (ns : Z).
Notation ndncatchunks := (catchunks_program uri interest_text packet_text data_text mark_text component_text metadata_error final_error range_error
  usage help_text version_text parse_name face_error writable ms_text initial_rto backoff_factor elapsed r0 srtt rto sample backoff rtts cbrt pow3 cv ns).
Notation transfer := (transfer elapsed r0 srtt rto sample backoff rtts cbrt pow3 ns).
Notation main := (cat_main (fun s => match parse_name s with inl _ => false | inr _ => true end) writable).

Lemma transfer_app j x1 x2 a1 a2 : exists l, fst (fst (transfer j (x1 ++ x2) (a1 ++ a2))) = fst (fst (transfer j x1 a1)) ++ l.
Proof.
  destruct j as [C|C w|C w]; cbn [transfer fst]; [apply x_history_app| |]; apply history_app.
Qed.
Lemma success_of_full a n j des xes aes :
  acceptable parse_name face_error writable a n -> main (Parsed false false (ca_opts a)) = Proceed j ->
  catchunks_status (d_run (DConfig (ca_noDiscovery a) (cc_retries (ca_opts a)) n) des)
    (snd (fst (transfer j xes aes))) (fst (fst (transfer j xes aes))) = Some 0 ->
  exists r, ndncatchunks (Cmd false false a) des xes aes None = Some r /\ rr_status r = Some 0.
Proof.
  intros Ha Hm S.
  pose proof (program_reads uri interest_text packet_text data_text mark_text component_text metadata_error final_error range_error
    usage help_text version_text parse_name face_error writable ms_text initial_rto backoff_factor elapsed r0 srtt rto sample backoff rtts cbrt pow3 cv ns
    (Cmd false false a) des xes aes None) as H.
  destruct (ndncatchunks (Cmd false false a) des xes aes None) as [r|].
  2: { destruct H as (a' & E & H). injection E as <-. contradiction H. exact (not_undefined _ _ _ _ Hm). }
  exists r. split; [reflexivity|]. destruct H as [H|H]; [now apply (acceptable_go _ _ _ _ _ _ _ _ _ _ _ _ Ha) in H|].
  destruct H as (a' & n' & j' & report & lines & xes1 & xes2 & aes1 & aes2 & err & E & Ha' & Hm' & Ex & Ea & Hall & H).
  injection E as <-. assert (n' = n) as -> by (pose proof (ok_name _ _ _ _ _ Ha); pose proof (ok_name _ _ _ _ _ Ha'); congruence).
  assert (j' = j) as -> by (pose proof (eq_trans (eq_sym Hm') Hm) as X; now injection X).
  cbv zeta in H. set (dh := d_run (DConfig (ca_noDiscovery a) (cc_retries (ca_opts a)) n) des) in *.
  destruct (transfer_app j xes1 xes2 aes1 aes2) as (l & El). rewrite <- Ex, <- Ea in El.
  assert (Same : rr_status r = None -> transfer j xes1 aes1 = transfer j xes aes).
  { intros Hn. specialize (Hall Hn). rewrite Ex, Ea. destruct j; cbn [is_fixed] in Hall; rewrite Hall, app_nil_r; reflexivity. }
  destruct (transfer j xes1 aes1) as [[h w] m]. cbn [fst] in El. destruct H as (_ & _ & _ & _ & H & _).
  unfold catchunks_status in S. destruct (existsb is_dfailure dh) eqn:Ef; [discriminate|]. destruct (existsb is_dsuccess dh) eqn:Es; [|discriminate].
  assert (O : forall st, catchunks_status dh w h = Some st -> st = 0).
  { intros st O. unfold catchunks_status in O. rewrite Ef, Es in O. apply status_facts in O. apply status_facts in S.
    destruct S as [[S _]|[S1 [[S _]|[_ (_ & S2 & S3)]]]]; try discriminate. rewrite El in S1, S2, S3.
    destruct O as [[_ (k & d & O1 & O2)]|[_ [[_ [O|(rs & O)]]|[O _]]]].
    - specialize (S1 k d (in_or_app _ _ _ (or_introl O1))). congruence.
    - contradiction S2. apply in_or_app. now left.
    - contradiction (S3 rs). apply in_or_app. now left.
    - exact O. }
  inversion H as [Ho _ Hs|what Ho Hb Hs|Ho Hs|seg d t Ho _ _ Hs|f t Ho _ _ _ Hs].
  - specialize (Same (eq_sym Hs)). rewrite <- Same in S. cbn [fst snd] in S. unfold catchunks_status in Ho. rewrite Ef, Es in Ho. congruence.
  - discriminate.
  - reflexivity.
  - specialize (O _ Ho). discriminate.
  - specialize (O _ Ho). discriminate.
Qed.
End Success.

Section BothSucceed.
Variable digest : packet -> component.
Variables (sign : packet -> list N * list N) (name_uri : name -> text) (comp_uri : component -> text) (interest_line : interest -> text)
  (packet_line : packet -> text) (put_usage put_version : text) (default_cv : convention) (parse_signing : text -> signing)
  (parse_prefix : text -> name + text) (start_error : option text) (load_error : name -> list N -> option text) (put_error : text).
Variables (uri : name -> text) (interest_text : name -> Z -> text) (packet_text : packet -> text) (data_text : N -> data -> text)
  (mark_text : data -> text) (component_text : component -> text) (metadata_error : packet -> text) (final_error : data -> text)
  (range_error : text) (usage help_text version_text : text) (ms_text elapsed : Z -> text).
Variables (parse_name : string -> text + name) (face_error : option text) (writable : string -> bool).
Variables (initial_rto backoff_factor : Z) (R : Type) (r0 : R) (srtt rto : R -> Z) (sample : Z -> Z -> R -> R) (backoff : R -> R)
  (rtts : R -> option (Z * Z * Z)) (cbrt pow3 : f64 -> f64) (cv : convention) (ns : Z).
Notation ndncatchunks := (catchunks_program uri interest_text packet_text data_text mark_text component_text metadata_error final_error range_error
  usage help_text version_text parse_name face_error writable ms_text initial_rto backoff_factor elapsed r0 srtt rto sample backoff rtts cbrt pow3 cv ns).
Notation ndnputchunks := (put_program digest sign name_uri comp_uri interest_line packet_line put_usage put_version default_cv parse_signing parse_prefix
  start_error load_error put_error).
Notation transfer := (transfer elapsed r0 srtt rto sample backoff rtts cbrt pow3 ns).
Notation main := (cat_main (fun s => match parse_name s with inl _ => false | inr _ => true end) writable).

Section Given.
Variables (pa : put_args) (pcv : convention) (pn : name) (now : N) (input : list N) (plain : name) (v : component).
Hypothesis Hnow : (now < 2 ^ 64)%N.
Hypothesis Hin : (N.of_nat (List.length input) + 1 < 2 ^ 64)%N.
Hypothesis Henc : encodable (plain ++ [v]).
Hypothesis Hacc : put_accepts default_cv parse_signing pa pcv.
Hypothesis Hpp : parse_prefix (ua_prefix pa) = inl pn.
Hypothesis Hver : versioned pcv now pn plain v.
Variables (a : cat_args) (n : name) (des : list devent) (vname : name).
Hypothesis Ha : acceptable parse_name face_error writable a n.
Hypothesis Hfits : fits_name plain v a n.
Notation dh := (d_run (DConfig (ca_noDiscovery a) (cc_retries (ca_opts a)) n) des).
Hypothesis Hd : In (DoSuccess vname) dh.
Notation o := (POpts (N.to_nat (ua_size pa)) (ua_fresh pa)).
Notation P := (make_producer pcv now o pn input).

Lemma given_producer : encodable (pr_vprefix P) /\ (0 < po_size o)%nat.
Proof.
  destruct (program_published digest sign name_uri comp_uri interest_line packet_line put_usage put_version default_cv parse_signing parse_prefix
    start_error load_error put_error pa pcv pn now input [] plain v (Packet [] [] None 0) Hnow Hacc Hpp Hver) as (_ & H2 & _ & _).
  rewrite H2. split; [exact Henc|]. pose proof (uk_size _ _ _ _ Hacc). cbn. lia.
Qed.
Lemma given_network h : (exists pes, forges_nothing digest (uo_sent (ndnputchunks (inr pa) now input pes)) cv a n des dh h) ->
  client_of digest pcv P (DConfig (ca_noDiscovery a) (cc_retries (ca_opts a)) n) dh /\
  honest_network digest pcv P cv vname (ca_fresh a) h.
Proof.
  intros (pes & N).
  pose proof (fun d => program_published digest sign name_uri comp_uri interest_line packet_line put_usage put_version default_cv parse_signing parse_prefix
    start_error load_error put_error pa pcv pn now input pes plain v d Hnow Hacc Hpp Hver) as H. cbv zeta in H.
  destruct (H (Packet [] [] None 0)) as (H1 & H2 & _ & _). pose proof (fun d => proj2 (proj2 (proj2 (H d)))) as H3.
  split.
  - exact (fits_client digest P pcv _ plain v H3 H1 H2 a n des cv h (cc_retries (ca_opts a)) Hfits N).
  - rewrite <- (app_nil_r h) in N. exact (forges_honest digest P pcv _ H3 a n des cv _ h [] vname N Hd).
Qed.

Theorem both_succeed_fixed (size : nat) (retries : Z) (f : nat -> xevent) b :
  main (Parsed false false (ca_opts a)) = Proceed (JFixed (XConfig size retries d_appnack)) ->
  let h m := x_history (x_run (XConfig size retries d_appnack) (xfirst m f)) in
  (forall m, exists pes, forges_nothing digest (uo_sent (ndnputchunks (inr pa) now input pes)) cv a n des dh (h m)) ->
  (forall m seg rr, ~ refused (h m) seg rr) ->
  (forall m seg, count (nack_for seg) (h m) <= b) -> (forall m seg, count (expiry_for seg) (h m) <= b) ->
  (retries = -1 \/ b <= retries) ->
  (forall m, awaited (h m) <> [] -> exists j, (m <= j)%nat /\ h (Datatypes.S j) <> h j) ->
  (forall i, f i <> XeCancel) ->
  exists m0, forall m, (m0 <= m)%nat ->
    exists r, ndncatchunks (Cmd false false a) des (xfirst m f) [] None = Some r /\ rr_status r = Some 0 /\ rr_stdout r = input.
Proof.
  intros Hm. cbv zeta. intros Hn H1 H2 H3 H4 H5 H6. destruct given_producer as [Hok Hs].
  assert (Hsize : (0 < size)%nat) by (destruct (job_shape _ _ _ _ Hm) as (s' & Hs' & E); injection E; intros; subst; exact Hs').
  destruct (e2e_fixed_succeeds digest pcv now Hnow o Hs pn input Hin (DConfig (ca_noDiscovery a) (cc_retries (ca_opts a)) n) des size retries f vname cv (ca_fresh a) b)
    as (m0 & H); auto.
  - apply (given_network _ (Hn O)).
  - intros m. apply (given_network _ (Hn m)).
  - exists m0. intros m Hle. destruct (H m Hle) as [St _].
    destruct (success_of_full uri interest_text packet_text data_text mark_text component_text metadata_error final_error range_error
      usage help_text version_text ms_text elapsed parse_name face_error writable initial_rto backoff_factor R r0 srtt rto sample backoff rtts cbrt pow3 cv ns
      a n _ des (xfirst m f) [] Ha Hm St) as (r & Hr & Hst).
    exists r. split; [exact Hr|]. split; [exact Hst|]. destruct (Hn m) as (pes & N).
    refine (proj2 (both_programs digest sign name_uri comp_uri interest_line packet_line put_usage put_version default_cv parse_signing parse_prefix
      start_error load_error put_error uri interest_text packet_text data_text mark_text component_text metadata_error final_error range_error
      usage help_text version_text ms_text elapsed parse_name face_error writable initial_rto backoff_factor R r0 srtt rto sample backoff rtts cbrt pow3 cv ns
      pa pcv pn now input pes plain v Hnow Hin Henc Hacc Hpp Hver a n _ des (xfirst m f) [] None r Hr (ok_name _ _ _ _ _ Ha) Hfits Hm _ (fun x => x) N) Hst).
    intros X. unfold xfirst in X. apply in_map_iff in X. destruct X as (i & X & _). now apply (H6 i).
Qed.
Theorem both_succeed_aimd C w (f : nat -> aevent) b :
  main (Parsed false false (ca_opts a)) = Proceed (JAimd C w) -> aimd_sane w -> aimd_moderate w ->
  let h m := a_history (a_run (aimd_policy w r0 rto sample backoff) C (first m f)) in
  (forall m, exists pes, forges_nothing digest (uo_sent (ndnputchunks (inr pa) now input pes)) cv a n des dh (h m)) ->
  (forall m, Z.of_nat (List.length (filter (fun x => match x with OWindow _ => true | _ => false end) (h m))) <= 4398046511104) ->
  (forall m seg rr, ~ refused (h m) seg rr) ->
  (forall m seg, count (lost seg) (h m) <= b) -> (cc_retries (ca_opts a) = -1 \/ b <= Z.max 1 (cc_retries (ca_opts a))) ->
  keeps_going f -> (forall i, f i <> AeCancel) ->
  exists m0, forall m, (m0 <= m)%nat ->
    exists r, ndncatchunks (Cmd false false a) des [] (first m f) None = Some r /\ rr_status r = Some 0 /\ rr_stdout r = input.
Proof.
  intros Hm Ws Wm. pose proof (job_shape _ _ _ _ Hm) as HC. cbn in HC. cbv zeta. intros Hn H0 H1 H2 H3 H4 H5. destruct given_producer as [Hok Hs].
  rewrite HC in Hn, H0, H1, H2.
  destruct (aimd_succeeds R w r0 rto sample backoff (DConfig (ca_noDiscovery a) (cc_retries (ca_opts a)) n) des (cc_retries (ca_opts a))
    (cc_ignoreMarks (ca_opts a)) (cc_disableCwa (ca_opts a)) f (pieces (po_size o) input) vname b Ws Wm) as (m0 & H); auto.
  - intros m. destruct (given_network _ (Hn m)) as [G1 G2].
    exact (e2e_genuine digest pcv now Hnow o Hs pn input Hin _ des vname cv (ca_fresh a) _ Hok G1 Hd G2).
  - exists m0. intros m Hle. destruct (H m Hle) as [St _]. rewrite HC in Hm.
    destruct (success_of_full uri interest_text packet_text data_text mark_text component_text metadata_error final_error range_error
      usage help_text version_text ms_text elapsed parse_name face_error writable initial_rto backoff_factor R r0 srtt rto sample backoff rtts cbrt pow3 cv ns
      a n _ des [] (first m f) Ha Hm St) as (r & Hr & Hst).
    exists r. split; [exact Hr|]. split; [exact Hst|]. destruct (Hn m) as (pes & N).
    refine (proj2 (both_programs digest sign name_uri comp_uri interest_line packet_line put_usage put_version default_cv parse_signing parse_prefix
      start_error load_error put_error uri interest_text packet_text data_text mark_text component_text metadata_error final_error range_error
      usage help_text version_text ms_text elapsed parse_name face_error writable initial_rto backoff_factor R r0 srtt rto sample backoff rtts cbrt pow3 cv ns
      pa pcv pn now input pes plain v Hnow Hin Henc Hacc Hpp Hver a n _ des [] (first m f) None r Hr (ok_name _ _ _ _ _ Ha) Hfits Hm (fun x => x) _ N) Hst).
    intros X. unfold first in X. apply in_map_iff in X. destruct X as (i & X & _). now apply (H5 i).
Qed.
Theorem both_succeed_cubic C w (f : nat -> aevent) b :
  main (Parsed false false (ca_opts a)) = Proceed (JCubic C w) -> cubic_sane w ->
  let P := cubic_policy cbrt pow3 w r0 srtt rto sample backoff in
  let h m := a_history (a_run P C (first m f)) in
  (forall m, exists pes, forges_nothing digest (uo_sent (ndnputchunks (inr pa) now input pes)) cv a n des dh (h m)) ->
  (forall m, convertible (p_floor P (p_initW P)) (h m)) ->
  (forall m seg rr, ~ refused (h m) seg rr) ->
  (forall m seg, count (lost seg) (h m) <= b) -> (cc_retries (ca_opts a) = -1 \/ b <= Z.max 1 (cc_retries (ca_opts a))) ->
  keeps_going f -> (forall i, f i <> AeCancel) ->
  exists m0, forall m, (m0 <= m)%nat ->
    exists r, ndncatchunks (Cmd false false a) des [] (first m f) None = Some r /\ rr_status r = Some 0 /\ rr_stdout r = input.
Proof.
  intros Hm Ws. pose proof (job_shape _ _ _ _ Hm) as HC. cbn in HC. cbv zeta. intros Hn H0 H1 H2 H3 H4 H5. destruct given_producer as [Hok Hs].
  rewrite HC in Hn, H0, H1, H2.
  destruct (cubic_succeeds R cbrt pow3 w r0 srtt rto sample backoff (DConfig (ca_noDiscovery a) (cc_retries (ca_opts a)) n) des (cc_retries (ca_opts a))
    (cc_ignoreMarks (ca_opts a)) (cc_disableCwa (ca_opts a)) f (pieces (po_size o) input) vname b Ws) as (m0 & H); auto.
  - intros m. destruct (given_network _ (Hn m)) as [G1 G2].
    exact (e2e_genuine digest pcv now Hnow o Hs pn input Hin _ des vname cv (ca_fresh a) _ Hok G1 Hd G2).
  - exists m0. intros m Hle. destruct (H m Hle) as [St _]. rewrite HC in Hm.
    destruct (success_of_full uri interest_text packet_text data_text mark_text component_text metadata_error final_error range_error
      usage help_text version_text ms_text elapsed parse_name face_error writable initial_rto backoff_factor R r0 srtt rto sample backoff rtts cbrt pow3 cv ns
      a n _ des [] (first m f) Ha Hm St) as (r & Hr & Hst).
    exists r. split; [exact Hr|]. split; [exact Hst|]. destruct (Hn m) as (pes & N).
    refine (proj2 (both_programs digest sign name_uri comp_uri interest_line packet_line put_usage put_version default_cv parse_signing parse_prefix
      start_error load_error put_error uri interest_text packet_text data_text mark_text component_text metadata_error final_error range_error
      usage help_text version_text ms_text elapsed parse_name face_error writable initial_rto backoff_factor R r0 srtt rto sample backoff rtts cbrt pow3 cv ns
      pa pcv pn now input pes plain v Hnow Hin Henc Hacc Hpp Hver a n _ des [] (first m f) None r Hr (ok_name _ _ _ _ _ Ha) Hfits Hm (fun x => x) _ N) Hst).
    intros X. unfold first in X. apply in_map_iff in X. destruct X as (i & X & _). now apply (H5 i).
Qed.
End Given.
End BothSucceed.
