(** Version discovery: its verbose messages, and the reason given for a failure. *)
From Verif Require Import Base BaseFacts TlvModel PipelineBase PipelineSpec FetcherModel FetcherProofs FixedSpec PutchunksModel PutchunksSpec.
From Verif Require Import DiscoverModel DiscoverSpec DiscoverProofs ExitModel FixedProofs FixedInv CatMsgModel CatLinesSpec CatFail CatFailSpec.
Local Open Scope Z_scope.

Lemma fetch_more (r0 : Z) (p q : nack_reason -> Prop) n n' t t' c :
  (forall rr, p rr -> q rr) -> n <= n' -> t <= t' -> fetch_explained r0 p n t c -> fetch_explained r0 q n' t' c.
Proof. intros Hp Hn Ht. destruct c; cbn; [intros [H1 H2]; auto|lia|lia]. Qed.
Lemma explained_more r a b f : discovery_explained r a f -> discovery_explained r (a ++ b) f.
Proof.
  assert (Hi : forall o : dobs, In o a -> In o (a ++ b)) by (intros; apply in_or_app; now left).
  assert (Hc : forall p, count p a <= count p (a ++ b)) by (intros p; rewrite count_app; pose proof (count_nonneg p b); lia).
  destruct f; cbn; try tauto.
  - apply fetch_more; auto.
  - intros [H1 H2]. auto.
  - intros (p & H1 & H2). exists p. auto.
Qed.

Section Disc.
Variable c : dconfig.
Notation r := (dc_retries c).

Lemma metadata_of_some p n : metadata_of p = Some n -> metadata_with p n.
Proof.
  unfold metadata_of. destruct (valid_metadata_name (k_name p)) eqn:E; [|discriminate]. intros H. split; [|exact H].
  now apply valid_metadata_name_spec.
Qed.
Lemma metadata_of_none p n : metadata_of p = None -> ~ metadata_with p n.
Proof.
  unfold metadata_of. intros H [H1 H2]. apply valid_metadata_name_spec in H1. rewrite H1 in H. congruence.
Qed.
Lemma not_versioned n : ends_with_version n = false -> forall pre v, n = pre ++ [v] -> is_version v = false.
Proof.
  intros H pre v E. destruct (is_version v) eqn:Ev; [|reflexivity].
  assert (ends_with_version n = true) by (apply ends_with_version_spec; exists pre, v; auto). congruence.
Qed.

Lemma disc_step st e : DI c st ->
  exists l, snd (d_step c st e) = snd st ++ l /\
  match d_failure c st e with
  | None => ~ In DoFailure l
  | Some f => In DoFailure l /\ discovery_explained r (snd st ++ l) f
  end.
Proof.
  destruct st as [f h]. intros [_ [(Hp & Hr & _ & Hn & Ht)|(Hp & _)]]; cbn [snd].
  2:{ exists []. unfold d_step, d_failure. cbn [fst snd]. assert (E : f_step (d_fconfig c) f (fetch_event e) = (f, [])).
      { unfold f_step. destruct e; cbn; now rewrite Hp. }
      rewrite E. cbn. rewrite app_nil_r. split; [reflexivity|]. destruct e; auto. }
  unfold d_step, d_failure. cbn [fst snd]. destruct (f_phase f) eqn:Ep; [congruence| |].
  - destruct e as [p|rr| |]; cbn [fetch_event].
    + destruct (f_data_case (d_fconfig c) f Ep Hr) as (f' & -> & _). cbn [snd fail_cause find flat_map d_react app existsb orb fold_left].
      exists [DoGotData p; d_handleData p]. split; [reflexivity|]. unfold fail_cause. cbn [find]. unfold d_handleData.
      destruct (metadata_of p) as [n|] eqn:Em.
      * destruct (ends_with_version n) eqn:Ev; [intros [H|[H|[]]]; discriminate|]. split; [right; now left|].
        exists p. split; [apply in_or_app; right; now left|]. split; [now apply metadata_of_some|now apply not_versioned].
      * split; [right; now left|]. split; [apply in_or_app; right; now left|]. intros n. now apply metadata_of_none.
    + destruct (f_step (d_fconfig c) f (FeNack rr)) as [f' os] eqn:Ef. cbn [fst snd].
      assert (Hos : (exists o, os = [FoGotNack rr; o] /\ (o = FoInterest \/ exists ms, o = FoBackoff ms)) \/
                  exists k, os = [FoGotNack rr; FoFailCb k] /\
                    fetch_explained r (fun rr' => rr' = rr) (count is_dnack (h ++ [DoGotNack rr])) r k).
      { assert (Hrun2 : f_isRunning (f_setPhase PhNone f) = true) by exact Hr.
        unfold f_step in Ef. rewrite Ep in Ef. unfold f_handleNack, prepend in Ef. rewrite Hrun2 in Ef. cbn [negb] in Ef. cbv zeta in Ef.
        set (f2 := if fc_maxNack (d_fconfig c) =? _ then _ else _) in Ef.
        assert (Hn2 : f_nNacks f2 = if r =? -1 then 0 else count is_dnack (h ++ [DoGotNack rr])).
        { unfold f2. cbn [d_fconfig fc_maxNack]. change MAX_RETRIES_INFINITE with (-1). rewrite count_app, count_cons, count_nil. cbn [is_dnack].
          destruct (r =? -1); cbn [f_nNacks f_setPhase]; [exact Hn|]. lia. }
        clearbody f2. cbn [d_fconfig fc_maxNack] in Ef.
        destruct ((f_nNacks f2 <=? r) || (r =? MAX_RETRIES_INFINITE)) eqn:El.
        - destruct rr; unfold f_congestion, f_expressInterest in Ef;
            try (injection Ef as _ <-; right; eexists; split; [reflexivity|]; repeat split; discriminate);
            try (injection Ef as _ <-; left; eauto 6; fail);
            destruct (_ <? _) in Ef; injection Ef as _ <-; left; cbn; eauto 6.
        - injection Ef as _ <-. right. eexists. split; [reflexivity|]. apply orb_false_elim in El. destruct El as [L1 L2].
          change MAX_RETRIES_INFINITE with (-1) in L2. rewrite L2 in Hn2. cbn. rewrite <- Hn2.
          split; [now apply Z.eqb_neq|now apply Z.leb_gt]. }
      destruct Hos as [(o & -> & Ho)|(k & -> & Hk)].
      * exists (flat_map (d_react c (DeNack rr)) [FoGotNack rr; o]). split; [reflexivity|].
        destruct Ho as [->|(ms & ->)]; cbn; intros [H|[H|[]]]; discriminate.
      * exists [DoGotNack rr; DoFailure]. split; [reflexivity|]. unfold fail_cause. cbn [find]. split; [right; now left|]. cbn [discovery_explained].
        destruct k as [rr'| |]; cbn [fetch_explained] in *.
        -- destruct Hk as [-> Hk]. split; [apply in_or_app; right; now left|exact Hk].
        -- destruct Hk as [H1 H2]. split; [exact H1|]. rewrite !count_app in *. unfold count in *. cbn in *. lia.
        -- lia.
    + destruct (f_step (d_fconfig c) f FeTimeout) as [f' os] eqn:Ef. cbn [fst snd].
      assert (Hos : os = [FoGotTimeout; FoInterest] \/
                  (os = [FoGotTimeout; FoFailCb CTimeoutLimit] /\ r <> -1 /\ r < count is_dtimeout (h ++ [DoGotTimeout]))).
      { assert (Hrun2 : f_isRunning (f_setPhase PhNone f) = true) by exact Hr.
        unfold f_step in Ef. rewrite Ep in Ef. unfold f_handleTimeout, prepend in Ef. rewrite Hrun2 in Ef. cbn [negb] in Ef. cbv zeta in Ef.
        set (f2 := if fc_maxTimeout (d_fconfig c) =? _ then _ else _) in Ef.
        assert (Hn2 : f_nTimeouts f2 = if r =? -1 then 0 else count is_dtimeout (h ++ [DoGotTimeout])).
        { unfold f2. cbn [d_fconfig fc_maxTimeout]. change MAX_RETRIES_INFINITE with (-1). rewrite count_app, count_cons, count_nil. cbn [is_dtimeout].
          destruct (r =? -1); cbn [f_nTimeouts f_setPhase]; [exact Ht|]. lia. }
        clearbody f2. cbn [d_fconfig fc_maxTimeout] in Ef.
        destruct ((f_nTimeouts f2 <=? r) || (r =? MAX_RETRIES_INFINITE)) eqn:El.
        - injection Ef as _ <-. now left.
        - injection Ef as _ <-. right. split; [reflexivity|]. apply orb_false_elim in El. destruct El as [L1 L2].
          change MAX_RETRIES_INFINITE with (-1) in L2. rewrite L2 in Hn2. rewrite <- Hn2.
          split; [now apply Z.eqb_neq|now apply Z.leb_gt]. }
      destruct Hos as [->|(-> & H1 & H2)].
      * eexists. split; [reflexivity|]. cbn. intros [H|[H|[]]]; discriminate.
      * exists [DoGotTimeout; DoFailure]. split; [reflexivity|]. unfold fail_cause. cbn [find]. split; [right; now left|].
        cbn [discovery_explained fetch_explained]. split; [exact H1|]. rewrite !count_app in *. unfold count in *. cbn in *. lia.
    + exists []. unfold f_step. rewrite Ep. cbn. rewrite app_nil_r. split; [reflexivity|]. intros [].
  - destruct e as [p|rr| |]; cbn [fetch_event].
    1,2,3: exists []; unfold f_step; rewrite Ep; cbn; rewrite app_nil_r; (split; [reflexivity|]); intros [].
    exists [DoInterest (discovery_interest (dc_prefix c))]. unfold f_step. rewrite Ep. cbn. split; [reflexivity|]. intros [H|[]]; discriminate.
Qed.

Lemma disc_from es : forall st, DI c st ->
  exists l, snd (fold_left (d_step c) es st) = snd st ++ l /\
  match d_failure_from c st es with
  | None => ~ In DoFailure l
  | Some f => In DoFailure l /\ discovery_explained r (snd st ++ l) f
  end.
Proof.
  induction es as [|e es IH]; intros st H; cbn [fold_left d_failure_from].
  { exists []. rewrite app_nil_r. split; [reflexivity|]. intros []. }
  destruct (disc_step st e H) as (l1 & E1 & H1). destruct (IH _ (di_step c st e H)) as (l2 & E2 & H2).
  exists (l1 ++ l2). rewrite E2, E1, <- app_assoc. split; [reflexivity|]. rewrite E1, <- app_assoc in H2.
  destruct (d_failure c st e) as [f|].
  - destruct H1 as [H1 H3]. split; [apply in_or_app; now left|]. rewrite app_assoc. now apply explained_more.
  - destruct (d_failure_from c (d_step c st e) es) as [f|].
    + destruct H2 as [H2 H3]. split; [apply in_or_app; now right|exact H3].
    + intros Hi. apply in_app_or in Hi. tauto.
Qed.
Lemma disc_start : DI c (d_start c).
Proof. exact (di_run c []). Qed.

(** The program fails in the discovery exactly if a reason is given, and the reason is true. *)
Theorem discovery_reason es :
  match d_failure_run c es with
  | None => existsb is_dfailure (d_run c es) = false
  | Some f => existsb is_dfailure (d_run c es) = true /\ discovery_explained r (d_run c es) f
  end.
Proof.
  unfold d_failure_run, d_run. destruct (d_skip c); [reflexivity|].
  destruct (disc_from es (d_start c) disc_start) as (l & E & H). fold (d_start c). rewrite E.
  assert (Hx : existsb is_dfailure (snd (d_start c) ++ l) = true <-> In DoFailure l).
  { rewrite existsb_exists. split.
    - intros (o & Ho & Hd). destruct o; try discriminate. apply in_app_or in Ho. destruct Ho as [[Ho|[]]|Ho]; [discriminate|exact Ho].
    - intros Hi. exists DoFailure. split; [apply in_or_app; now right|reflexivity]. }
  destruct (d_failure_from c (d_start c) es) as [f|].
  - destruct H as [H1 H2]. split; [now apply Hx|exact H2].
  - apply not_true_iff_false. intros Hy. apply H, Hx, Hy.
Qed.

(** ** the messages *)
Lemma messages_app a : forall b n, discovery_messages n (a ++ b) = discovery_messages n a ++ discovery_messages (n + disc_sent a) b.
Proof.
  induction a as [|o a IH]; intros b n; cbn [app discovery_messages].
  { unfold disc_sent. rewrite count_nil. now rewrite Z.add_0_r. }
  destruct o; cbn [app]; rewrite IH; unfold disc_sent; rewrite count_cons; cbv iota; rewrite ?Z.add_0_l; try reflexivity.
  rewrite Z.add_assoc. reflexivity.
Qed.
Lemma message_step st e : DI c st ->
  exists l, snd (d_step c st e) = snd st ++ l /\ md_step st e = discovery_messages (disc_sent (snd st)) l.
Proof.
  destruct st as [f h]. intros [_ [(Hp & Hr & _ & Hn & Ht)|(Hp & _)]]; cbn [snd].
  2:{ exists []. unfold d_step, md_step. cbn [fst snd]. assert (E : f_step (d_fconfig c) f (fetch_event e) = (f, [])).
      { unfold f_step. destruct e; cbn; now rewrite Hp. }
      rewrite E, Hp. cbn. now rewrite app_nil_r. }
  unfold d_step, md_step. cbn [fst snd]. destruct (f_phase f) eqn:Ep; [congruence| |].
  - rewrite Hr. cbn [negb]. destruct e as [p|rr| |]; cbn [fetch_event].
    + destruct (f_data_case (d_fconfig c) f Ep Hr) as (f' & -> & _). eexists. split; [reflexivity|]. cbn.
      unfold d_handleData. destruct (metadata_of p) as [n|]; [destruct (ends_with_version n)|]; reflexivity.
    + destruct (f_step (d_fconfig c) f (FeNack rr)) as [f' os] eqn:Ef. cbn [fst snd]. eexists. split; [reflexivity|].
      assert (Hrun2 : f_isRunning (f_setPhase PhNone f) = true) by exact Hr.
      unfold f_step in Ef. rewrite Ep in Ef. unfold f_handleNack, prepend in Ef. rewrite Hrun2 in Ef. cbn [negb] in Ef. cbv zeta in Ef.
      set (f2 := if fc_maxNack (d_fconfig c) =? _ then _ else _) in Ef. clearbody f2.
      destruct (_ || _) in Ef; [destruct rr|]; injection Ef as _ <-; try reflexivity.
      unfold f_congestion. destruct (_ <? _); reflexivity.
    + destruct (f_step (d_fconfig c) f FeTimeout) as [f' os] eqn:Ef. cbn [fst snd]. eexists. split; [reflexivity|].
      assert (Hrun2 : f_isRunning (f_setPhase PhNone f) = true) by exact Hr.
      unfold f_step in Ef. rewrite Ep in Ef. unfold f_handleTimeout, prepend in Ef. rewrite Hrun2 in Ef. cbn [negb] in Ef. cbv zeta in Ef.
      set (f2 := if fc_maxTimeout (d_fconfig c) =? _ then _ else _) in Ef. clearbody f2.
      destruct (_ || _) in Ef; injection Ef as _ <-; reflexivity.
    + exists []. unfold f_step. rewrite Ep. cbn. now rewrite app_nil_r.
  - destruct e as [p|rr| |]; cbn [fetch_event].
    1,2,3: exists []; unfold f_step; rewrite Ep; cbn; now rewrite app_nil_r.
    eexists. unfold f_step. rewrite Ep. cbn. split; reflexivity.
Qed.
Lemma messages_from es : forall st, DI c st ->
  exists l, snd (fold_left (d_step c) es st) = snd st ++ l /\ md_from c st es = discovery_messages (disc_sent (snd st)) l.
Proof.
  induction es as [|e es IH]; intros st H; cbn [fold_left md_from].
  { exists []. now rewrite app_nil_r. }
  destruct (message_step st e H) as (l1 & E1 & H1). destruct (IH _ (di_step c st e H)) as (l2 & E2 & H2).
  exists (l1 ++ l2). rewrite E2, E1, <- app_assoc. split; [reflexivity|]. rewrite H1, H2, messages_app, E1.
  unfold disc_sent. now rewrite count_app.
Qed.
Theorem discovery_lines es : d_skip c = false -> md_run c es = discovery_messages 0 (d_run c es).
Proof.
  intros Hs. unfold md_run, d_run. rewrite Hs. destruct (messages_from es (d_start c) disc_start) as (l & E & H).
  fold (d_start c). rewrite E, H. reflexivity.
Qed.
End Disc.
