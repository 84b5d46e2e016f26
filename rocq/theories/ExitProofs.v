From Verif Require Import Base BaseFacts PipelineBase PipelineSpec FetcherModel FixedModel FixedSpec AdaptiveModel AdaptiveProofs AdaptiveTheorems.
From Verif Require Import ConsumerModel ConsumerSpec ConsumerProofs CatchunksModel CatchunksSpec CatchunksProofs.
From Verif Require Import FixedProofs FixedInv FixedInv2 FixedInv3 FixedInv4 FixedTheorems DiscoverModel ExitModel.

(** * The consumer's part *)
Lemma consumer_cases h :
  (exists k d, In (ODeliver k d) h /\ d_appnack d = true) /\ co_exit (catchunks_consumer h) = Some 3 \/
  (forall k d, In (ODeliver k d) h -> d_appnack d = false) /\ co_exit (catchunks_consumer h) = None.
Proof.
  unfold catchunks_consumer. set (l := map _ _).
  assert (Hl : forall e, In e l <-> exists k d, e = CeAccept k d /\ In (ODeliver k d) h).
  { intros e. unfold l. rewrite in_map_iff. split.
    - intros ((k & d) & <- & H). exists k, d. split; [reflexivity|]. now apply in_deliveries.
    - intros (k & d & -> & H). exists (k, d). split; [reflexivity|]. now apply in_deliveries. }
  destruct (existsb is_bad l) eqn:E.
  - left. 
    assert (Hs : exists a b c, l = a ++ b :: c /\ Forall (fun e => is_bad e = false) a /\ is_bad b = true).
    { clear Hl. clearbody l. induction l as [|x l IH]; [discriminate|]. cbn in E. destruct (is_bad x) eqn:Ex.
      - exists [], x, l. repeat split; auto.
      - destruct IH as (a & b & c & -> & H1 & H2); [exact E|]. exists (x :: a), b, c. repeat split; auto. }
    destruct Hs as (a & b & c & Hs & Ha & Hb).
    assert (Hin : In b l) by (rewrite Hs; apply in_or_app; right; now left).
    apply Hl in Hin. destruct Hin as (k & d & -> & Hin). split; [exists k, d; split; assumption|].
    rewrite Hs. destruct (consumer_bad_lemma a c (CeAccept k d) Ha Hb) as [_ H]. exact H.
  - right. assert (Hg : Forall (fun e => is_bad e = false) l).
    { apply Forall_forall. intros e He. destruct (is_bad e) eqn:Eb; [|reflexivity].
      apply not_true_iff_false in E. exfalso. apply E, existsb_exists. eauto. }
    split; [|now apply consumer_good_lemma].
    intros k d H. rewrite Forall_forall in Hg. apply (Hg (CeAccept k d)). apply Hl. eauto.
Qed.

(** why an exception leaves the pipeline *)
Definition cause (t : list pobs) : Prop :=
  (exists k d, In (ODeliver k d) t /\ d_appnack d = true) \/
  (exists k d, In (OGotData k d) t /\ d_fbi d = FbiInvalid).
Lemma cause_app l t : cause t -> cause (l ++ t).
Proof.
  intros [(k & d & H1 & H2)|(k & d & H1 & H2)]; [left|right]; exists k, d; (split; [apply in_or_app; now right|exact H2]).
Qed.
Lemma cause_rev t : cause (rev t) <-> cause t.
Proof.
  unfold cause. split; (intros [(k & d & H1 & H2)|(k & d & H1 & H2)]; [left|right]; exists k, d; (split; [|exact H2]));
    first [now apply in_rev|now apply -> in_rev].
Qed.

(** events that neither throw nor cancel *)
Definition plain (o : pobs) : bool := match o with OThrow | OGotCancel => false | _ => true end.
Definition calm (t t' : list pobs) : Prop := exists l, t' = l ++ t /\ forallb plain l = true.
Lemma calm_refl t : calm t t.
Proof. now exists []. Qed.
Lemma calm_trans a b c : calm a b -> calm b c -> calm a c.
Proof. intros (l & -> & H1) (m & -> & H2). exists (m ++ l). rewrite forallb_app, H1, H2. now rewrite app_assoc. Qed.
Lemma calm_cons o t : plain o = true -> calm t (o :: t).
Proof. intros H. exists [o]. cbn. now rewrite H. Qed.
Lemma calm_abandon l t : Forall (fun o => is_ab o = true) l -> calm t (l ++ t).
Proof.
  intros H. exists l. split; [reflexivity|]. apply forallb_forall. rewrite Forall_forall in H.
  intros o Ho. specialize (H o Ho). destruct o; try discriminate; reflexivity.
Qed.
Lemma calm_in o t t' : calm t t' -> plain o = false -> In o t' -> In o t.
Proof.
  intros (l & -> & H) Ho Hi. apply in_app_or in Hi. destruct Hi as [Hi|Hi]; [|exact Hi].
  rewrite forallb_forall in H. specialize (H o Hi). congruence.
Qed.
Lemma calm_cause t t' : calm t t' -> cause t -> cause t'.
Proof. intros (l & -> & _). apply cause_app. Qed.
Definition throws_ok (t : list pobs) : Prop := In OThrow t -> cause t.
Lemma throws_calm t t' : calm t t' -> throws_ok t -> throws_ok t'.
Proof. intros H Ht Hi. apply (calm_cause _ _ H), Ht, (calm_in OThrow _ _ H eq_refl Hi). Qed.

(** * The fixed pipeline *)
Section Fixed.
Variable C : xconfig.
Hypothesis Hcb : xc_cbThrows C = d_appnack.

Lemma ab_abandoned l : Forall (fun o => is_ab o = true) (flat_map abandoned l).
Proof.
  apply Forall_forall. intros o H. apply in_flat_map in H. destruct H as ([[f k]|] & _ & H); [|contradiction].
  cbn in H. destruct (f_isRunning f); [|contradiction]. destruct H as [<-|[]]. reflexivity.
Qed.
Lemma ab_after seg l : Forall (fun o => is_ab o = true) (flat_map (x_abandonAfter seg) l).
Proof.
  apply Forall_forall. intros o H. apply in_flat_map in H. destruct H as ([[f k]|] & _ & H); [|contradiction].
  cbn in H. destruct (seg <? k)%N; [|contradiction]. destruct (f_isRunning f); [|contradiction]. destruct H as [<-|[]]. reflexivity.
Qed.
Lemma ab_learn n l : Forall (fun o => is_ab o = true) (snd (fst (x_learn n l))).
Proof.
  induction l as [|[[f k]|] l IH]; cbn; [constructor| |].
  - destruct (n <? k)%N.
    + destruct (x_learn n l) as [[r o] e]. cbn in *. destruct (f_isRunning f); [constructor; auto|exact IH].
    + destruct (f_hasError f); [constructor|]. destruct (x_learn n l) as [[r o] e]. exact IH.
  - destruct (x_learn n l) as [[r o] e]. exact IH.
Qed.
Lemma calm_rev_ab l t : Forall (fun o => is_ab o = true) l -> calm t (rev l ++ t).
Proof. intros H. apply calm_abandon. apply Forall_rev. exact H. Qed.

Lemma xc_cancel s : calm (x_tr s) (x_tr (x_cancel s)).
Proof. unfold x_cancel. destruct (b_stopping (x_b s)); [apply calm_refl|]. apply calm_rev_ab, ab_abandoned. Qed.
Lemma xc_onFailure rs s : calm (x_tr s) (x_tr (x_onFailure rs s)).
Proof.
  unfold x_onFailure. destruct (b_stopping (x_b s)); [apply calm_refl|].
  eapply calm_trans; [apply xc_cancel|]. now apply calm_cons.
Qed.
Lemma xc_fetchNext i s : calm (x_tr s) (x_tr (fst (fetchNextSegment C i s))).
Proof.
  unfold fetchNextSegment. destruct (b_stopping (x_b s)); [apply calm_refl|].
  destruct (x_hasFailure s); [apply xc_onFailure|]. destruct (b_getNext (x_b s)) as [next b].
  destruct (b_hasFbi b && (b_last b <? next)%N); [apply calm_refl|]. cbn [fst x_setSlots x_tr].
  destruct (nth_error _ i) as [[[f k]|]|]; try (now apply calm_cons).
  destruct (f_isRunning f); [|now apply calm_cons].
  eapply calm_trans; [now apply (calm_cons (OInterest next false))|]. now apply calm_cons.
Qed.
Lemma xc_doRun k : forall i s, calm (x_tr s) (x_tr (x_doRun C k i s)).
Proof.
  induction k as [|k IH]; intros i s; [apply calm_refl|]. cbn. pose proof (xc_fetchNext i s) as H.
  destruct (fetchNextSegment C i s) as [s' ok]. cbn in H. destruct ok; [|exact H]. eapply calm_trans; eauto.
Qed.
Lemma xc_advance i s : calm (x_tr s) (x_tr (x_advance C i s)).
Proof. unfold x_advance. destruct (b_allReceived (x_b s)); [now apply calm_cons|apply xc_fetchNext]. Qed.
Lemma xc_handleFail seg s : calm (x_tr s) (x_tr (x_handleFail seg s)).
Proof.
  unfold x_handleFail. destruct (b_stopping (x_b s)); [apply calm_refl|].
  destruct (_ && _); [apply xc_onFailure|]. destruct (b_hasFbi (x_b s)); [apply calm_refl|].
  set (s1 := XState _ _ _ _ _). assert (H : calm (x_tr s) (x_tr s1)) by apply calm_rev_ab, ab_after.
  destruct (existsb _ _); [exact H|]. eapply calm_trans; [exact H|apply xc_onFailure].
Qed.

(** either nothing is thrown, or an exception with a cause *)
Definition stepT (t t' : list pobs) : Prop :=
  calm t t' \/ exists t1, calm t t1 /\ t' = OThrow :: t1 /\ cause t1.
Lemma xt_handleData i seg d s : In (OGotData seg d) (x_tr s) -> stepT (x_tr s) (x_tr (x_handleData C i seg d s)).
Proof.
  intros Hgot. unfold x_handleData. destruct (b_stopping (x_b s)); [left; apply calm_refl|].
  set (s1 := x_emit _ _). assert (H1 : calm (x_tr s) (x_tr s1)) by now apply calm_cons.
  rewrite Hcb. destruct (d_appnack d) eqn:Ea.
  { right. exists (x_tr s1). split; [exact H1|]. split; [reflexivity|]. left. exists seg, d. split; [now left|exact Ea]. }
  destruct (b_hasFbi (x_b s1)); [left; eapply calm_trans; [exact H1|apply xc_advance]|].
  destruct (d_fbi d) as [|n|] eqn:Ef.
  - left; eapply calm_trans; [exact H1|apply xc_advance].
  - pose proof (ab_learn n (x_slots s1)) as Hl. destruct (x_learn n (x_slots s1)) as [[l o] e]. cbn in Hl.
    set (s2 := XState _ _ _ _ _). left.
    assert (H2 : calm (x_tr s) (x_tr s2)) by (eapply calm_trans; [exact H1|now apply calm_rev_ab]).
    destruct e; (eapply calm_trans; [exact H2|]); [apply xc_onFailure|apply xc_advance].
  - right. exists (x_tr s1). split; [exact H1|]. split; [reflexivity|]. right. exists seg, d. split; [now right|exact Ef].
Qed.

Lemma f_step_nodata c f e : e <> FeData -> Forall (fun o => o <> FoDataCb) (snd (f_step c f e)).
Proof.
  intros He. destruct e; cbn; [congruence| | | |]; destruct (f_phase f); cbn; try (repeat constructor; congruence).
  - constructor; [congruence|]. unfold f_handleNack. destruct (negb _); [constructor|].
    destruct (_ || _); [|repeat constructor; congruence].
    destruct r; cbn; try (repeat constructor; congruence).
    unfold f_congestion. destruct (_ <? _); repeat constructor; congruence.
  - constructor; [congruence|]. unfold f_handleTimeout. destruct (negb _); [constructor|].
    destruct (_ || _); repeat constructor; congruence.
Qed.
Lemma xc_react i seg d s o : o <> FoDataCb -> calm (x_tr s) (x_tr (x_react C i seg d s o)).
Proof. intros H. destruct o; try congruence; cbn [x_react]; try (now apply calm_cons); [apply calm_refl|apply xc_handleFail]. Qed.
Lemma xc_reacts i seg d os : Forall (fun o => o <> FoDataCb) os -> forall s,
  calm (x_tr s) (x_tr (fold_left (x_react C i seg d) os s)).
Proof.
  induction 1 as [|o os Ho _ IH]; intros s; [apply calm_refl|]. cbn.
  eapply calm_trans; [apply (xc_react i seg d s o Ho)|apply IH].
Qed.
Lemma xt_slotEvent i d e s : stepT (x_tr s) (x_tr (x_slotEvent C i d e s)).
Proof.
  unfold x_slotEvent. destruct (nth_error (x_slots s) i) as [[[f seg]|]|]; try (left; apply calm_refl).
  destruct e.
  - cbn [f_step]. destruct (f_phase f); try (left; apply calm_refl).
    unfold f_handleData. destruct (negb _); cbn [prepend fst snd app fold_left x_react].
    + left. now apply calm_cons.
    + match goal with |- stepT _ (x_tr (x_handleData _ _ _ _ ?z)) => pose proof (xt_handleData i seg d z (or_introl eq_refl)) as H end.
      assert (H1 : calm (x_tr s) (OGotData seg d :: x_tr s)) by now apply calm_cons.
      destruct H as [H|(t1 & H & E & Hc)]; [left|right; exists t1]; eauto using calm_trans.
  - pose proof (f_step_nodata (x_fconfig C) f (FeNack r)) as H. destruct (f_step _ f _) as [f' os].
    left. apply (xc_reacts i seg d os (H ltac:(congruence)) (x_setSlots (upd i (Some (f', seg)) (x_slots s)) s)).
  - pose proof (f_step_nodata (x_fconfig C) f FeTimeout) as H. destruct (f_step _ f _) as [f' os].
    left. apply (xc_reacts i seg d os (H ltac:(congruence)) (x_setSlots (upd i (Some (f', seg)) (x_slots s)) s)).
  - pose proof (f_step_nodata (x_fconfig C) f FeTimer) as H. destruct (f_step _ f _) as [f' os].
    left. apply (xc_reacts i seg d os (H ltac:(congruence)) (x_setSlots (upd i (Some (f', seg)) (x_slots s)) s)).
  - pose proof (f_step_nodata (x_fconfig C) f FeCancel) as H. destruct (f_step _ f _) as [f' os].
    left. apply (xc_reacts i seg d os (H ltac:(congruence)) (x_setSlots (upd i (Some (f', seg)) (x_slots s)) s)).
Qed.

Lemma throws_stepT t t' : stepT t t' -> throws_ok t -> throws_ok t'.
Proof.
  intros [H|(t1 & H & -> & Hc)] Ht; [now apply (throws_calm t)|]. intros _. apply (cause_app [OThrow]). exact Hc.
Qed.
Lemma cancel_stepT t t' : stepT t t' -> In OGotCancel t' -> In OGotCancel t.
Proof.
  intros [H|(t1 & H & -> & Hc)] Hi; [now apply (calm_in _ _ _ H)|].
  destruct Hi as [Hi|Hi]; [discriminate|]. now apply (calm_in _ _ _ H).
Qed.

Lemma xrun_throws es : throws_ok (x_tr (x_run C es)) /\ (In OGotCancel (x_tr (x_run C es)) -> In XeCancel es).
Proof.
  induction es as [|e es IH] using rev_ind.
  - unfold x_run. cbn [fold_left]. pose proof (xc_doRun (xc_size C) 0 (x_init C)) as H. split.
    + apply (throws_calm _ _ H). intros [].
    + intros Hi. now apply (calm_in _ _ _ H) in Hi.
  - unfold x_run in *. rewrite fold_left_app. cbn [fold_left]. set (s := fold_left _ es _) in *.
    destruct IH as [IH1 IH2]. unfold x_step. destruct (x_crashed s).
    { split; [exact IH1|]. intros H. apply in_or_app. left. auto. }
    assert (HE : forall i d fe, throws_ok (x_tr (x_slotEvent C i d fe s)) /\
        (In OGotCancel (x_tr (x_slotEvent C i d fe s)) -> In XeCancel (es ++ [e]))).
    { intros i d fe. pose proof (xt_slotEvent i d fe s) as H. split; [now apply (throws_stepT _ _ H)|].
      intros Hi. apply in_or_app. left. apply IH2. now apply (cancel_stepT _ _ H). }
    destruct e; try apply HE. split.
    + apply (throws_calm _ _ (xc_cancel _)). intros [H|H]; [discriminate|]. apply (cause_app [OGotCancel]), IH1, H.
    + intros _. apply in_or_app. right. now left.
Qed.

Lemma in_xh es o : In o (x_history (x_run C es)) <-> In o (x_tr (x_run C es)).
Proof. unfold x_history. symmetry. apply in_rev. Qed.

Lemma ex_throw h : existsb is_throw h = true <-> In OThrow h.
Proof.
  rewrite existsb_exists. split; [|intros H; exists OThrow; auto]. intros (o & H1 & H2). destruct o; try discriminate. exact H1.
Qed.
Lemma ex_failure h : existsb is_failure h = true <-> exists rs, In (OFail rs) h.
Proof.
  rewrite existsb_exists. split; [|intros (rs & H); exists (OFail rs); auto]. intros (o & H1 & H2).
  destruct o; try discriminate. eauto.
Qed.

Lemma status_facts working h st : pipeline_status working h = Some st ->
  (st = 3 /\ exists k d, In (ODeliver k d) h /\ d_appnack d = true) \/
  ((forall k d, In (ODeliver k d) h -> d_appnack d = false) /\
   (st = 1 /\ (In OThrow h \/ exists rs, In (OFail rs) h) \/
    st = 0 /\ working = false /\ ~ In OThrow h /\ forall rs, ~ In (OFail rs) h)).
Proof.
  unfold pipeline_status. destruct (consumer_cases h) as [[H ->]|[H ->]].
  - intros [= <-]. left. auto.
  - destruct (existsb is_throw h) eqn:Et; cbn [orb].
    { intros [= <-]. right. split; [exact H|]. left. split; [reflexivity|]. left. now apply ex_throw. }
    destruct (existsb is_failure h) eqn:Ef.
    { intros [= <-]. right. split; [exact H|]. left. split; [reflexivity|]. right. now apply ex_failure. }
    destruct working; [discriminate|]. intros [= <-]. right. split; [exact H|]. right. repeat split.
    + intros Hi. apply ex_throw in Hi. congruence.
    + intros rs Hi. apply not_true_iff_false in Ef. apply Ef, ex_failure. eauto.
Qed.

Section FixedExit.
Variable es : list xevent.
Hypothesis Hsize : (0 < xc_size C)%nat.
Notation s := (x_run C es).
Notation h := (x_history (x_run C es)).

Lemma fixed_three : pipeline_status (x_working s) h = Some 3 <-> exists k d, In (ODeliver k d) h /\ d_appnack d = true.
Proof.
  split.
  - intros H. apply status_facts in H. destruct H as [[_ H]|[_ [[H _]|[H _]]]]; [exact H|discriminate|discriminate].
  - intros (k & d & H1 & H2). unfold pipeline_status. destruct (consumer_cases h) as [[_ ->]|[H _]]; [reflexivity|].
    rewrite (H k d H1) in H2. discriminate.
Qed.

Lemma fixed_one : pipeline_status (x_working s) h = Some 1 ->
  (exists rs, In (OFail rs) h) \/ exists k d, In (OGotData k d) h /\ d_fbi d = FbiInvalid.
Proof.
  intros H. apply status_facts in H. destruct H as [[H _]|[Ha [[_ H]|[H _]]]]; [discriminate| |discriminate].
  destruct H as [H|H]; [|now left]. apply in_xh in H. apply (proj1 (xrun_throws es)) in H.
  apply cause_rev in H. destruct H as [(k & d & H1 & H2)|H]; [|now right]. rewrite (Ha k d H1) in H2. discriminate.
Qed.

Lemma fixed_zero : ~ In XeCancel es -> pipeline_status (x_working s) h = Some 0 ->
  In ODone h /\ exists n, known_last h = Some n /\ forall k, (k <= n)%N -> In k (map fst (deliveries h)).
Proof.
  intros Hnc H. apply status_facts in H. destruct H as [[H _]|[_ [[H _]|(_ & Hw & Hth & Hf)]]]; [discriminate|discriminate|].
  assert (Hc : x_crashed s = false).
  { destruct (x_crashed s) eqn:E; [|reflexivity]. exfalso. apply Hth, in_xh. now apply vis_run in E. }
  destruct (run_ok C es Hsize) as [Hok HJ]. destruct (HJ Hc) as [[HA HR] HB].
  assert (Hst : b_stopping (x_b s) = false).
  { rewrite <- (X_end _ _ HA). rewrite <- (rev_involutive (x_tr _)), xend_rev.
    apply not_true_iff_false. intros H. apply existsb_exists in H. destruct H as (o & H1 & H2).
    destruct o as [| | | | | |rs| | | | | | | | | | |]; try discriminate; [|apply (Hf rs H1)]. apply Hnc, (proj2 (xrun_throws es)). now apply in_xh. }
  specialize (HR Hst).
  assert (Hno : forall j f k, nth_error (x_slots s) j = Some (Some (f, k)) -> f_phase f = PhNone).
  { intros j f k Hj. apply nth_error_In in Hj. destruct (f_phase f) eqn:E; [reflexivity| |];
      (apply not_true_iff_false in Hw; exfalso; apply Hw, existsb_exists; exists (Some (f, k)); cbn; rewrite E; auto). }
  assert (Hnr : forall j f k, nth_error (x_slots s) j = Some (Some (f, k)) -> f_isRunning f = false).
  { intros j f k Hj. destruct (Y_slot _ _ _ HR j f k Hj) as (_ & H & _). rewrite (Hno j f k Hj) in H. exact H. }
  assert (Hd : In ODone (x_tr s)).
  { destruct (HB Hst) as [Hd|(j & f & k & Hj & Hr)]; [exact Hd|]. rewrite (Hnr j f k Hj) in Hr. discriminate. }
  split; [now apply in_xh|].
  assert (Hd' : In ODone h) by now apply in_xh.
  apply in_split in Hd'. destruct Hd' as (h1 & h2 & E). destruct (fixed_done C es Hsize h1 h2 E) as (n & Hn & Hlen).
  assert (Hk : known_last h = Some n) by (rewrite <- known_rev, E, rev_app_distr, known_app, known_rev, Hn; reflexivity).
  exists n. split; [exact Hk|].
  assert (Hin : forall k, In k (map fst (deliveries h)) <-> In k (dl (x_tr s))).
  { intros k. rewrite <- (rev_involutive (x_tr s)), dl_rev. apply in_rev. }
  assert (Hl2 : (N.to_nat n < length (dl (x_tr s)))%nat).
  { rewrite <- (rev_involutive (x_tr s)), dl_rev, rev_length, map_length. fold (x_history s). rewrite E, deliveries_app, app_length. lia. }
  assert (Hnf : (n < nf (x_tr s))%N).
  { assert (Hle : (length (dl (x_tr s)) <= length (upto (N.to_nat (nf (x_tr s)))))%nat).
    { apply NoDup_incl_length; [now apply (xtr_dl_nodup C)|]. intros k Hkk. apply in_upto.
      apply (xtr_dl_nf C _ Hok) in Hkk. lia. }
    rewrite length_upto in Hle. lia. }
  assert (Hfb : fbOf s = Some n).
  { unfold fbOf. rewrite <- (X_known _ _ HA). rewrite <- (rev_involutive (x_tr s)), known_rev. exact Hk. }
  intros k Hkn. apply Hin. destruct (Y_cov _ _ _ HR k) as [H|(j & f & Hj)]; [lia|exact H|].
  destruct (in_dec N.eq_dec k (dl (x_tr s))) as [Hi|Hi]; [exact Hi|exfalso].
  destruct (Y_slot _ _ _ HR j f k Hj) as (_ & _ & _ & H1 & H2). rewrite Hfb in H1, H2.
  destruct (f_hasError f) eqn:Ee.
  - destruct (H1 eq_refl) as (_ & _ & H). lia.
  - specialize (H2 (Hnr j f k Hj) eq_refl Hi). lia.
Qed.

Lemma fixed_done_zero chunks : genuine_history chunks h -> In ODone h -> pipeline_status (x_working s) h = Some 0.
Proof.
  intros Hg Hd. destruct (run_ok C es Hsize) as [Hok HJ].
  assert (Hna : forall k d, In (ODeliver k d) h -> d_appnack d = false).
  { intros k d Hi. apply in_split in Hi. destruct Hi as (h1 & h2 & E).
    destruct (fixed_delivery_genuine C es Hsize h1 k d h2 E) as [H _].
    apply (Hg k d). rewrite E. apply in_or_app. now left. }
  assert (Hth : ~ In OThrow h).
  { intros H. apply in_xh, (proj1 (xrun_throws es)), cause_rev in H.
    destruct H as [(k & d & H1 & H2)|(k & d & H1 & H2)]; [rewrite (Hna k d H1) in H2; discriminate|].
    apply Hg in H1. destruct H1 as (_ & _ & [H|H]); congruence. }
  assert (Hdt : In ODone (x_tr s)) by now apply in_xh.
  assert (Hgt : genuine_history chunks (x_tr s)) by (intros k d H; apply Hg; now apply in_xh).
  assert (Hf : forall rs, ~ In (OFail rs) h).
  { intros rs Hi. destruct (in_split _ _ Hd) as (h1 & h2 & E). rewrite E in Hi. apply in_app_or in Hi.
    destruct Hi as [Hi|[Hi|Hi]]; [|discriminate|].
    - apply in_split in Hi. destruct Hi as (g1 & g2 & Eg). rewrite Eg, <- app_assoc in E.
      cbn in E. pose proof (fixed_stop C es Hsize g1 (OFail rs) (g2 ++ ODone :: h2) E eq_refl ODone) as H.
      assert (Hi : In ODone (g2 ++ ODone :: h2)) by (apply in_or_app; right; now left). specialize (H Hi). discriminate.
    - pose proof (fixed_after_done C es Hsize h1 h2 chunks E Hg _ Hi) as H. discriminate. }
  assert (Hc : x_crashed s = false).
  { destruct (x_crashed s) eqn:E; [|reflexivity]. exfalso. apply Hth, in_xh. now apply vis_run in E. }
  destruct (HJ Hc) as [[HA HR] HB].
  assert (Hw : x_working s = false).
  { destruct (b_stopping (x_b s)) eqn:Es; [unfold x_working; now rewrite (X_stop _ _ HA Es)|]. specialize (HR eq_refl).
    apply not_true_iff_false. intros H. apply existsb_exists in H. destruct H as ([[f k]|] & H1 & H2); [|discriminate].
    apply In_nth_error in H1. destruct H1 as (j & Hj). destruct (Y_slot _ _ _ HR j f k Hj) as (Hk & Hp & Hr & _).
    cbn in H2. assert (Hrun : f_isRunning f = true) by (destruct (f_phase f); [discriminate|tauto|tauto]).
    destruct (Hr Hrun) as (H3 & H4 & _).
    destruct (xtr_done C chunks _ Hok Hgt Hdt) as (n & Hn & Hall & _ & _).
    unfold fbOf in H4. rewrite <- (X_known _ _ HA), Hn in H4. cbn in H4. apply H3, Hall. lia. }
  unfold pipeline_status. destruct (consumer_cases h) as [[(k & d & H1 & H2) _]|[_ ->]].
  { rewrite (Hna k d H1) in H2. discriminate. }
  destruct (existsb is_throw h) eqn:Et; [apply ex_throw in Et; contradiction|].
  destruct (existsb is_failure h) eqn:Ef; [apply ex_failure in Ef; destruct Ef as [rs Ef]; now apply Hf in Ef|].
  now rewrite Hw.
Qed.
End FixedExit.
End Fixed.
