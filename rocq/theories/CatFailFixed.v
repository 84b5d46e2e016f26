(** The fixed pipeline: the reason given for a failure is true. *)
From Verif Require Import Base BaseFacts PipelineBase PipelineSpec FetcherModel FetcherProofs FixedModel FixedSpec AdaptiveModel AdaptiveProofs AdaptiveTheorems.
From Verif Require Import ConsumerModel CatchunksModel CatchunksSpec CatchunksProofs.
From Verif Require Import FixedProofs FixedInv FixedInv2 FixedInv3 FixedInv4 FixedTheorems DiscoverModel DiscoverSpec ExitModel ExitProofs CatMsgModel CatFail CatFailSpec.

Section Fixed.
Variable C : xconfig.
Notation cb := (xc_cbThrows C).
Notation r := (xc_maxRetries C).

Section Kind.
Variable p : pobs -> bool.
Hypothesis Hab : forall o, is_ab o = true -> p o = true.
Hypothesis Hint : forall k b, p (OInterest k b) = true.
Hypothesis Hassert : p OAssert = true.
Hypothesis Hdone : p ODone = true.
Hypothesis Hnofinal : p (OFail RNoFinal) = true.
Notation e := (ext p).

Lemma e_ab l t : Forall (fun o => is_ab o = true) l -> e t (l ++ t).
Proof. intros H. apply ext_forall. eapply Forall_impl; [|exact H]. exact Hab. Qed.
Lemma e_rev_ab l t : Forall (fun o => is_ab o = true) l -> e t (rev l ++ t).
Proof. intros H. apply e_ab. now apply Forall_rev. Qed.
Lemma e_cancel s : e (x_tr s) (x_tr (x_cancel s)).
Proof. unfold x_cancel. destruct (b_stopping (x_b s)); [apply ext_refl|]. apply e_rev_ab, ab_abandoned. Qed.
Lemma e_onFailure rs s : p (OFail rs) = true -> e (x_tr s) (x_tr (x_onFailure rs s)).
Proof.
  intros H. unfold x_onFailure. destruct (b_stopping (x_b s)); [apply ext_refl|].
  eapply ext_trans; [apply e_cancel|]. now apply ext_cons.
Qed.
Lemma e_fetchNext i s : e (x_tr s) (x_tr (fst (fetchNextSegment C i s))).
Proof.
  unfold fetchNextSegment. destruct (b_stopping (x_b s)); [apply ext_refl|].
  destruct (x_hasFailure s); [now apply e_onFailure|]. destruct (b_getNext (x_b s)) as [next b].
  destruct (b_hasFbi b && (b_last b <? next)%N); [apply ext_refl|]. cbn [fst x_setSlots x_tr].
  destruct (nth_error _ i) as [[[f k]|]|]; try (now apply ext_cons).
  destruct (f_isRunning f); [|now apply ext_cons].
  eapply ext_trans; [now apply (ext_cons p (OInterest next false))|]. now apply ext_cons.
Qed.
Lemma e_doRun k : forall i s, e (x_tr s) (x_tr (x_doRun C k i s)).
Proof.
  induction k as [|k IH]; intros i s; [apply ext_refl|]. cbn. pose proof (e_fetchNext i s) as H.
  destruct (fetchNextSegment C i s) as [s' ok]. cbn in H. destruct ok; [|exact H]. eapply ext_trans; eauto.
Qed.
Lemma e_advance i s : e (x_tr s) (x_tr (x_advance C i s)).
Proof. unfold x_advance. destruct (b_allReceived (x_b s)); [now apply ext_cons|apply e_fetchNext]. Qed.
Lemma e_handleFail seg s : p (OFail (RFetch seg)) = true -> e (x_tr s) (x_tr (x_handleFail seg s)).
Proof.
  intros H0. unfold x_handleFail. destruct (b_stopping (x_b s)); [apply ext_refl|].
  destruct (_ && _); [now apply e_onFailure|]. destruct (b_hasFbi (x_b s)); [apply ext_refl|].
  set (s1 := XState _ _ _ _ _). assert (H : e (x_tr s) (x_tr s1)) by apply e_rev_ab, ab_after.
  destruct (existsb _ _); [exact H|]. eapply ext_trans; [exact H|now apply e_onFailure].
Qed.
End Kind.

(** no report that a segment could not be fetched *)
Definition norf (o : pobs) : bool := match o with OFail (RFetch _) => false | _ => true end.
(** the kind of what a step may add without throwing *)
Definition kind (o : pobs) : bool := safe cb o && norf o.
Ltac kinds := try reflexivity; try (intros [] Hx; (reflexivity || discriminate Hx)).

(** what handleData adds, given the arrival of the Data *)
Lemma data_chunk i seg d s :
  ext kind (x_tr s) (x_tr (x_handleData C i seg d s)) \/
  (x_crashed (x_handleData C i seg d s) = true /\ x_tr (x_handleData C i seg d s) = OThrow :: ODeliver seg d :: x_tr s /\
   (cb d = true \/ cb d = false /\ d_fbi d = FbiInvalid)).
Proof.
  unfold x_handleData. destruct (b_stopping (x_b s)); [left; apply ext_refl|].
  set (s1 := x_emit _ _). destruct (cb d) eqn:Ed; [right; auto|].
  assert (H1 : ext kind (x_tr s) (x_tr s1)) by (apply ext_cons; unfold kind; cbn; now rewrite Ed).
  assert (HA : forall s2, ext kind (x_tr s1) (x_tr s2) -> ext kind (x_tr s) (x_tr (x_advance C i s2))).
  { intros s2 H2. eapply ext_trans; [exact H1|]. eapply ext_trans; [exact H2|]. apply e_advance; kinds. }
  destruct (b_hasFbi (x_b s1)); [left; apply HA, ext_refl|].
  destruct (d_fbi d) as [|n|] eqn:Ef.
  - left. apply HA, ext_refl.
  - pose proof (ab_learn n (x_slots s1)) as Hl. destruct (x_learn n (x_slots s1)) as [[l o] e]. cbn in Hl.
    set (s2 := XState _ _ _ _ _). left.
    assert (H2 : ext kind (x_tr s1) (x_tr s2)) by (apply e_rev_ab; [kinds|exact Hl]).
    destruct e; [|now apply HA]. eapply ext_trans; [exact H1|]. eapply ext_trans; [exact H2|]. apply e_onFailure; kinds.
  - right. auto.
Qed.

Lemma fail_cause_none os : Forall (fun o => match o with FoFailCb _ => False | _ => True end) os -> fail_cause os = None.
Proof.
  intros H. unfold fail_cause. rewrite find_none_all; [reflexivity|]. intros x Hx. rewrite Forall_forall in H. specialize (H x Hx). now destruct x.
Qed.

(** a step in a state of a run: what is added, and the reason if a segment could not be fetched *)
Definition step_result (s : xstate) (ev : xevent) : Prop :=
  exists l, x_tr (x_step C s ev) = l ++ x_tr s /\ chunk cb (x_got s ev) l /\
    (In OThrow l -> x_crashed (x_step C s ev) = true) /\
    forall seg, In (OFail (RFetch seg)) l ->
      exists c, x_cause C s ev = Some c /\
        fetch_explained r (fun rr => In (OGotNack seg rr) (l ++ x_tr s)) (count (nack_for seg) (l ++ x_tr s))
          (count (expiry_for seg) (l ++ x_tr s)) c.
Lemma ext_result s ev : ext kind (x_tr s) (x_tr (x_step C s ev)) -> step_result s ev.
Proof.
  intros (l & E & H). exists l. split; [exact E|]. rewrite forallb_forall in H. split.
  - apply Ch_safe. apply forallb_forall. intros o Ho. specialize (H o Ho). unfold kind in H. now apply andb_prop in H.
  - split; [intros Hi; specialize (H _ Hi); discriminate|]. intros seg Hi. specialize (H _ Hi). discriminate.
Qed.

Lemma refl_result s ev : x_tr (x_step C s ev) = x_tr s -> step_result s ev.
Proof. intros E. apply ext_result. rewrite E. apply ext_refl. Qed.

Lemma chunk_step s ev : XT C s -> step_result s ev.
Proof.
  intros [_ HX]. destruct (x_crashed s) eqn:Ec.
  { apply refl_result. unfold x_step. now rewrite Ec. }
  specialize (HX eq_refl).
  destruct ev as [i d|i rr|i|i|].
  5:{ apply ext_result. unfold x_step. rewrite Ec. eapply ext_trans; [|apply e_cancel; kinds]. apply (ext_cons kind OGotCancel). reflexivity. }
  all: destruct (nth_error (x_slots s) i) as [[[f seg]|]|] eqn:Ei;
    try (apply refl_result; unfold x_step, x_slotEvent; rewrite Ec, Ei; reflexivity).
  all: destruct (b_stopping (x_b s)) eqn:Es.
  1,3,5,7: exfalso; pose proof (X_stop _ _ (proj1 (proj1 HX)) Es) as E0; rewrite E0 in Ei; destruct i; discriminate.
  all: destruct (Y_slot _ _ _ (proj2 (proj1 HX) Es) i f seg Ei) as (_ & S2 & S3 & _).
  - (* Data *)
    destruct (f_phase f) eqn:Ep.
    1,3: apply refl_result; unfold x_step, x_slotEvent; rewrite Ec, Ei; unfold f_step; rewrite Ep; reflexivity.
    destruct S2 as [Hrun _]. destruct (f_data_case (x_fconfig C) f Ep Hrun) as (f' & Ef & _).
    assert (Est : x_step C s (XeData i d) = x_handleData C i seg d (x_emit (OGotData seg d) (x_setSlots (upd i (Some (f', seg)) (x_slots s)) s))).
    { unfold x_step, x_slotEvent. rewrite Ec, Ei, Ef. reflexivity. }
    set (s1 := x_emit _ _) in Est.
    assert (H1 : ext kind (x_tr s) (x_tr s1)) by now apply ext_cons.
    destruct (data_chunk i seg d s1) as [H|(K & E & H)].
    + apply ext_result. rewrite Est. eapply ext_trans; eauto.
    + exists [OThrow; ODeliver seg d; OGotData seg d]. rewrite Est, E. split; [reflexivity|]. split; [|split; [intros _; exact K|]].
      * destruct H as [H|[H Hf]]; [apply Ch_nack; [exact H|now left|reflexivity]|].
        apply (Ch_final cb _ seg d); [exact Hf| |right; now left|cbn; now rewrite H]. cbn. now rewrite Ei.
      * intros k [Hx|[Hx|[Hx|[]]]]; discriminate.
  - (* Nack *)
    destruct (f_phase f) eqn:Ep.
    1,3: apply refl_result; unfold x_step, x_slotEvent; rewrite Ec, Ei; unfold f_step; rewrite Ep; reflexivity.
    destruct S2 as [Hrun _]. destruct (S3 Hrun) as (_ & _ & Hn & Ht).
    destruct (f_step (x_fconfig C) f (FeNack rr)) as [f' os] eqn:Ef.
    assert (Est : x_step C s (XeNack i rr) = fold_left (x_react C i seg no_data) os (x_setSlots (upd i (Some (f', seg)) (x_slots s)) s)).
    { unfold x_step, x_slotEvent. rewrite Ec, Ei, Ef. reflexivity. }
    assert (Hos : (exists o, os = [FoGotNack rr; o] /\ (o = FoInterest \/ exists ms, o = FoBackoff ms)) \/
                  exists c, os = [FoGotNack rr; FoFailCb c] /\
                    fetch_explained r (fun rr' => rr' = rr) (count (nack_for seg) (OGotNack seg rr :: x_tr s)) r c).
    { assert (Hrun2 : f_isRunning (f_setPhase PhNone f) = true) by exact Hrun.
      unfold f_step in Ef. rewrite Ep in Ef. unfold f_handleNack, prepend in Ef. rewrite Hrun2 in Ef. cbn [negb] in Ef. cbv zeta in Ef.
      set (f2 := if fc_maxNack (x_fconfig C) =? _ then _ else _) in Ef.
      assert (Hn2 : f_nNacks f2 = if r =? -1 then 0 else count (nack_for seg) (OGotNack seg rr :: x_tr s)).
      { unfold f2. cbn [x_fconfig fc_maxNack]. change MAX_RETRIES_INFINITE with (-1). rewrite count_cons. cbn [nack_for]. rewrite N.eqb_refl.
        destruct (r =? -1); cbn [f_nNacks f_setPhase]; [exact Hn|]. lia. }
      clearbody f2. cbn [x_fconfig fc_maxNack] in Ef.
      destruct ((f_nNacks f2 <=? r) || (r =? MAX_RETRIES_INFINITE)) eqn:El.
      - destruct rr; unfold f_congestion, f_expressInterest in Ef;
          try (injection Ef as _ <-; right; eexists; split; [reflexivity|]; repeat split; discriminate);
          try (injection Ef as _ <-; left; eauto 6; fail);
          destruct (_ <? _) in Ef; injection Ef as _ <-; left; cbn; eauto 6.
      - injection Ef as _ <-. right. eexists. split; [reflexivity|]. apply orb_false_elim in El. destruct El as [L1 L2].
        change MAX_RETRIES_INFINITE with (-1) in L2. rewrite L2 in Hn2. cbn. rewrite <- Hn2.
        split; [now apply Z.eqb_neq|now apply Z.leb_gt]. }
    destruct Hos as [(o & -> & Ho)|(c & -> & Hc)].
    + apply ext_result. rewrite Est. cbn [fold_left]. eapply ext_trans; [now apply (ext_cons kind (OGotNack seg rr))|].
      destruct Ho as [->|(ms & ->)]; now apply ext_cons.
    + cbn [fold_left x_react] in Est. set (s1 := x_emit (OGotNack seg rr) _) in Est.
      assert (Hs1 : x_tr s1 = OGotNack seg rr :: x_tr s) by reflexivity.
      destruct (e_handleFail (safe cb) ltac:(kinds) ltac:(kinds) seg s1 ltac:(kinds)) as (l & El & Hl). rewrite Hs1 in El.
      exists (l ++ [OGotNack seg rr]). rewrite Est, El, <- app_assoc. split; [reflexivity|]. split.
      * apply Ch_safe. rewrite forallb_app, Hl. reflexivity.
      * split. { intros Hk. exfalso. rewrite forallb_forall in Hl. apply in_app_or in Hk. destruct Hk as [Hk|[Hk|[]]]; [|discriminate]. specialize (Hl _ Hk). discriminate. }
        intros k Hk. assert (k = seg) as ->.
        { destruct (e_handleFail (fun o => match o with OFail (RFetch j) => N.eqb j seg | _ => true end) ltac:(kinds) ltac:(kinds) seg s1
            (N.eqb_refl seg)) as (l' & El' & Hl').
          rewrite El, Hs1 in El'. apply app_inv_tail in El'. subst l'. apply in_app_or in Hk. destruct Hk as [Hk|[Hk|[]]]; [|discriminate].
          rewrite forallb_forall in Hl'. specialize (Hl' _ Hk). now apply N.eqb_eq in Hl'. }
        exists c. split; [unfold x_cause; cbn [x_fevent]; rewrite Ei, Ef; reflexivity|].
        destruct c; cbn [fetch_explained] in *.
        -- destruct Hc as (-> & Hc). split; [|exact Hc]. apply in_or_app. right. now left.
        -- destruct Hc as [Hc1 Hc2]. split; [exact Hc1|]. rewrite count_app. cbn [app]. pose proof (count_nonneg (nack_for seg) l). lia.
        -- lia.
  - (* timeout *)
    destruct (f_phase f) eqn:Ep.
    1,3: apply refl_result; unfold x_step, x_slotEvent; rewrite Ec, Ei; unfold f_step; rewrite Ep; reflexivity.
    destruct S2 as [Hrun _]. destruct (S3 Hrun) as (_ & _ & Hn & Ht).
    destruct (f_step (x_fconfig C) f FeTimeout) as [f' os] eqn:Ef.
    assert (Est : x_step C s (XeTimeout i) = fold_left (x_react C i seg no_data) os (x_setSlots (upd i (Some (f', seg)) (x_slots s)) s)).
    { unfold x_step, x_slotEvent. rewrite Ec, Ei, Ef. reflexivity. }
    assert (Hos : os = [FoGotTimeout; FoInterest] \/
                  (os = [FoGotTimeout; FoFailCb CTimeoutLimit] /\ r <> -1 /\ r < count (expiry_for seg) (OGotExpiry seg :: x_tr s))).
    { assert (Hrun2 : f_isRunning (f_setPhase PhNone f) = true) by exact Hrun.
      unfold f_step in Ef. rewrite Ep in Ef. unfold f_handleTimeout, prepend in Ef. rewrite Hrun2 in Ef. cbn [negb] in Ef. cbv zeta in Ef.
      set (f2 := if fc_maxTimeout (x_fconfig C) =? _ then _ else _) in Ef.
      assert (Hn2 : f_nTimeouts f2 = if r =? -1 then 0 else count (expiry_for seg) (OGotExpiry seg :: x_tr s)).
      { unfold f2. cbn [x_fconfig fc_maxTimeout]. change MAX_RETRIES_INFINITE with (-1). rewrite count_cons. cbn [expiry_for]. rewrite N.eqb_refl.
        destruct (r =? -1); cbn [f_nTimeouts f_setPhase]; [exact Ht|]. lia. }
      clearbody f2. cbn [x_fconfig fc_maxTimeout] in Ef.
      destruct ((f_nTimeouts f2 <=? r) || (r =? MAX_RETRIES_INFINITE)) eqn:El.
      - injection Ef as _ <-. now left.
      - injection Ef as _ <-. right. split; [reflexivity|]. apply orb_false_elim in El. destruct El as [L1 L2].
        change MAX_RETRIES_INFINITE with (-1) in L2. rewrite L2 in Hn2. rewrite <- Hn2.
        split; [now apply Z.eqb_neq|now apply Z.leb_gt]. }
    destruct Hos as [->|(-> & Hc)].
    + apply ext_result. rewrite Est. cbn [fold_left]. eapply ext_trans; [now apply (ext_cons kind (OGotExpiry seg))|]. now apply ext_cons.
    + cbn [fold_left x_react] in Est. set (s1 := x_emit (OGotExpiry seg) _) in Est.
      assert (Hs1 : x_tr s1 = OGotExpiry seg :: x_tr s) by reflexivity.
      destruct (e_handleFail (safe cb) ltac:(kinds) ltac:(kinds) seg s1 ltac:(kinds)) as (l & El & Hl). rewrite Hs1 in El.
      exists (l ++ [OGotExpiry seg]). rewrite Est, El, <- app_assoc. split; [reflexivity|]. split.
      * apply Ch_safe. rewrite forallb_app, Hl. reflexivity.
      * split. { intros Hk. exfalso. rewrite forallb_forall in Hl. apply in_app_or in Hk. destruct Hk as [Hk|[Hk|[]]]; [|discriminate]. specialize (Hl _ Hk). discriminate. }
        intros k Hk. assert (k = seg) as ->.
        { destruct (e_handleFail (fun o => match o with OFail (RFetch j) => N.eqb j seg | _ => true end) ltac:(kinds) ltac:(kinds) seg s1
            (N.eqb_refl seg)) as (l' & El' & Hl').
          rewrite El, Hs1 in El'. apply app_inv_tail in El'. subst l'. apply in_app_or in Hk. destruct Hk as [Hk|[Hk|[]]]; [|discriminate].
          rewrite forallb_forall in Hl'. specialize (Hl' _ Hk). now apply N.eqb_eq in Hl'. }
        exists CTimeoutLimit. split; [unfold x_cause; cbn [x_fevent]; rewrite Ei, Ef; reflexivity|].
        cbn [fetch_explained]. destruct Hc as [Hc1 Hc2]. split; [exact Hc1|]. rewrite count_app. cbn [app]. pose proof (count_nonneg (expiry_for seg) l). lia.
  - (* timer *)
    destruct (f_phase f) eqn:Ep.
    1,2: apply refl_result; unfold x_step, x_slotEvent; rewrite Ec, Ei; unfold f_step; rewrite Ep; reflexivity.
    apply ext_result. unfold x_step, x_slotEvent. rewrite Ec, Ei. unfold f_step. rewrite Ep. cbn. now apply ext_cons.
Qed.

(** the start *)
Lemma start_mild k : forall i s, x_hasFailure s = false -> ext mild (x_tr s) (x_tr (x_doRun C k i s)).
Proof.
  induction k as [|k IH]; intros i s Hf; [apply ext_refl|]. cbn [x_doRun].
  assert (H : ext mild (x_tr s) (x_tr (fst (fetchNextSegment C i s))) /\ x_hasFailure (fst (fetchNextSegment C i s)) = false).
  { unfold fetchNextSegment. destruct (b_stopping (x_b s)); [split; [apply ext_refl|exact Hf]|]. rewrite Hf.
    unfold b_getNext. cbv zeta. destruct (_ && _); [split; [apply ext_refl|exact Hf]|].
    cbn [x_emit x_slots x_setB x_hasFailure x_tr].
    destruct (nth_error _ i) as [[[f j]|]|]; cbn [fst x_setSlots x_emit x_tr x_hasFailure]; try (split; [now apply ext_cons|exact Hf]).
    destruct (f_isRunning f); cbn [fst x_setSlots x_emit x_tr x_hasFailure x_setB]; (split; [|exact Hf]); [|now apply ext_cons].
    eapply ext_trans; [now apply (ext_cons mild (OInterest (b_next (x_b s)) false))|]. now apply ext_cons. }
  destruct (fetchNextSegment C i s) as [s' ok]. cbn [fst] in H. destruct H as [H H']. destruct ok; [|exact H].
  eapply ext_trans; [exact H|now apply IH].
Qed.
End Fixed.

Section FixedRun.
Variable C : xconfig.
Hypothesis Hcb : xc_cbThrows C = d_appnack.
Hypothesis Hsize : (0 < xc_size C)%nat.
Notation r := (xc_maxRetries C).
Notation start := (x_doRun C (xc_size C) 0 (x_init C)).

Lemma start_inv : XT C start.
Proof. exact (run_ok C [] Hsize). Qed.
Lemma start_clean : clean (x_tr start).
Proof.
  destruct (start_mild C (xc_size C) 0 (x_init C) eq_refl) as (l & E & H). cbn [x_init x_tr] in E. rewrite app_nil_r in E. rewrite E.
  rewrite forallb_forall in H. split.
  - apply forallb_forall. intros o Ho. apply meek_safe, mild_meek, H, Ho.
  - intros rs Hi. specialize (H _ Hi). discriminate.
Qed.

Lemma fail_step s e : XT C s -> exists l, x_tr (x_step C s e) = l ++ x_tr s /\ outcome l (x_failure C s e) /\
  (In OThrow l -> x_crashed (x_step C s e) = true).
Proof.
  intros H. destruct (chunk_step C s e H) as (l & E & Hc & Hk & Hs). exists l. split; [exact E|]. split; [|exact Hk].
  unfold x_failure. rewrite E, added_app. rewrite Hcb in *. pose proof (chunk_thrown d_appnack (x_got s e) l Hc) as HT.
  destruct (thrown d_appnack (x_got s e) (rev l)) as [f|] eqn:Et; [|exact HT].
  destruct f as [rs| | | | |seg d|seg d| |]; try contradiction.
  - destruct HT as (H1 & H2 & H3).
    assert (Ho : outcome l (Some (FlReason rs))) by (split; [right; eauto|exact H3]).
    destruct rs; try exact Ho. destruct (x_cause C s e); [|exact Ho]. split; [right; eauto|exact H3].
  - split; apply HT.
  - split; [|apply HT]. left.
    destruct Hc as [l0 Hl|seg0 d0 l0 Hd0 Hg0 Hl|]; [|now left|now left].
    pose proof (thrown_safe d_appnack (x_got s e) l0 Hl) as Hx. rewrite Et in Hx. destruct Hx as (rs & Hx & _). discriminate.
Qed.

Lemma x_failure_run_from es : x_failure_run C es = fail_from _ _ (x_step C) (x_failure C) start es.
Proof.
  unfold x_failure_run. generalize start. induction es as [|e es IH]; intros s; cbn; [reflexivity|].
  destruct (x_failure C s e); [reflexivity|apply IH].
Qed.

Lemma dead_step s e : x_crashed s = true -> x_step C s e = s.
Proof. intros Hd. unfold x_step. now rewrite Hd. Qed.

(** the failure and the exit status *)
Lemma fixed_status es :
  pipeline_status (x_working (x_run C es)) (x_history (x_run C es)) =
  match x_failure_run C es with
  | None => if x_working (x_run C es) then None else Some 0
  | Some (FlAppNack _ _) => Some 3
  | Some _ => Some 1
  end.
Proof.
  rewrite x_failure_run_from.
  apply (status_fail xstate xevent x_tr (x_step C) (x_failure C) (XT C) x_crashed).
  - intros s e. apply step_ok.
  - exact fail_step.
  - exact dead_step.
  - exact start_inv.
  - exact start_clean.
  - intros es' h1 rs h2 Eh. exact (fixed_stop C es' Hsize h1 (OFail rs) h2 Eh eq_refl).
Qed.

Lemma fetch_explained_more (r0 : Z) (p q : nack_reason -> Prop) n n' t t' c :
  (forall rr, p rr -> q rr) -> n <= n' -> t <= t' -> fetch_explained r0 p n t c -> fetch_explained r0 q n' t' c.
Proof. intros Hp Hn Ht. destruct c; cbn; [intros [H1 H2]; auto|lia|lia]. Qed.

(** the reason is true *)
Lemma fixed_explained es f :
  x_failure_run C es = Some f -> pipeline_explained (failure_caused_fixed r) r (x_history (x_run C es)) f.
Proof.
  rewrite x_failure_run_from. intros Ef.
  pose proof (run_fail xstate xevent x_tr (x_step C) (x_failure C) (XT C) x_crashed (step_ok C) fail_step dead_step es start start_inv) as HR.
  rewrite Ef in HR. destruct HR as (es1 & e & es2 & l0 & l1 & l2 & _ & _ & HR). cbv zeta in HR.
  destruct HR as (I1 & _ & I3 & I4 & _ & I6 & _). set (s1 := fold_left (x_step C) es1 start) in *.
  set (h := x_history (x_run C es)).
  assert (Eh : h = rev (x_tr s1) ++ rev l1 ++ rev l2).
  { unfold h, x_history, x_run. rewrite I6, !rev_app_distr, <- app_assoc. reflexivity. }
  assert (Hl1 : forall o, In o l1 -> In o h).
  { intros o Ho. rewrite Eh. apply in_or_app. right. apply in_or_app. left. now apply -> in_rev. }
  assert (Hc1 : forall p, count p (l1 ++ x_tr s1) <= count p h).
  { intros p. rewrite Eh, !count_app, !count_rev. pose proof (count_nonneg p l2). lia. }
  destruct (chunk_step C s1 e I1) as (l & E & Hc & Hk & Hs). rewrite I4 in E. apply app_inv_tail in E. subst l.
  unfold x_failure in I3. rewrite I4, added_app in I3. rewrite Hcb in *.
  pose proof (chunk_thrown d_appnack (x_got s1 e) l1 Hc) as HT.
  destruct (thrown d_appnack (x_got s1 e) (rev l1)) as [f1|]; [|discriminate].
  destruct f1 as [rs| | | | |seg d|seg d| |]; try contradiction.
  - destruct HT as (H1 & _ & _).
    assert (HJ : exists h1 h2, h = h1 ++ OFail rs :: h2 /\ failure_caused_fixed r h1 rs).
    { destruct (in_split _ _ (Hl1 _ H1)) as (h1 & h2 & Ex). exists h1, h2. split; [exact Ex|]. exact (fixed_failure C es Hsize h1 rs h2 Ex). }
    destruct rs as [|k|k|k|k rr]; try (injection I3 as <-; exact HJ).
    destruct (Hs k H1) as (c & Ec & Hx). rewrite Ec in I3. injection I3 as <-. split; [now apply Hl1|].
    eapply fetch_explained_more; [|apply Hc1|apply Hc1|exact Hx].
    intros rr Hi. rewrite Eh. apply in_app_or in Hi. destruct Hi as [Hi|Hi].
    + apply in_or_app. right. apply in_or_app. left. now apply -> in_rev.
    + apply in_or_app. left. now apply -> in_rev.
  - injection I3 as <-. destruct HT as (H1 & H2 & H3). cbn. auto.
  - injection I3 as <-. destruct HT as (H1 & H2 & H3). cbn. auto.
Qed.
End FixedRun.
