(** The adaptive pipelines: the reason given for a failure is true. *)
From Verif Require Import Base BaseFacts PipelineBase PipelineSpec FetcherModel FixedSpec AdaptiveModel AdaptiveProofs AdaptiveInv AdaptiveInv2 AdaptiveTheorems.
From Verif Require Import ConsumerModel CatchunksModel CatchunksSpec CatchunksProofs DiscoverModel DiscoverSpec ExitModel ExitProofs CatMsgModel CatFail CatFailSpec.

Section Adaptive.
Context {W R : Type}.
Variable P : policy W R.
Variable C : aconfig.
Notation cb := (c_cbThrows C).
Notation r := (c_maxRetries C).
Notation st := (@astate W R).
Notation e s s' := (ext meek (a_tr s) (a_tr s')).

Lemma e_same (s s' : st) : a_tr s' = a_tr s -> e s s'.
Proof. intros ->. apply ext_refl. Qed.
Lemma e_emit o (s s' : st) : a_tr s' = o :: a_tr s -> meek o = true -> e s s'.
Proof. intros -> H. now apply ext_cons. Qed.
Ltac es := first [apply ext_refl|solve [apply e_same; reflexivity]|solve [eapply e_emit; reflexivity]].

Lemma e_onFailure rs (s : st) : e s (onFailure rs s).
Proof.
  unfold onFailure, isStopping. destruct (b_stopping (a_b s)) eqn:E; [apply ext_refl|].
  unfold cancel, isStopping. rewrite E. eapply e_emit; reflexivity.
Qed.
Lemma m_cancelGreater n (s : st) : ext mild (a_tr s) (a_tr (cancelGreater n s)).
Proof.
  unfold cancelGreater. cbn. apply ext_forall. apply Forall_forall. intros o Ho. apply in_map_iff in Ho.
  destruct Ho as (x & <- & _). reflexivity.
Qed.
Lemma e_cancelGreater n (s : st) : e s (cancelGreater n s).
Proof. eapply ext_mono; [exact mild_meek|apply m_cancelGreater]. Qed.
Lemma e_handleFail seg rs (s : st) : e s (handleFail seg rs s).
Proof.
  unfold handleFail. destruct (isStopping s); [apply ext_refl|]. destruct (_ && _); [apply e_onFailure|].
  destruct (negb _); [|apply ext_refl]. cbv zeta.
  set (s1 := set_nInFlight _ (set_segs _ _)).
  assert (H0 : e s s1) by es. clearbody s1.
  destruct (a_segs s1) eqn:E; (eapply ext_trans; [exact H0|]); [apply e_onFailure|].
  eapply ext_trans; [apply (e_cancelGreater seg)|]. es.
Qed.
Lemma e_express seg retx (s : st) : e s (express P seg retx s).
Proof. unfold express. destruct retx; es. Qed.
Lemma e_sendInterest seg retx (s : st) : e s (sendInterest P C seg retx s).
Proof.
  unfold sendInterest. destruct (isStopping s); [apply ext_refl|]. destruct (_ && _); [apply ext_refl|].
  destruct (_ && _); [apply ext_refl|]. destruct retx; [|apply e_express].
  destruct (kget seg (a_retxCount s)); cbv zeta; [destruct (_ && _)|].
  - eapply ext_trans; [|apply e_handleFail]. es.
  - eapply ext_trans; [|apply e_express]. es.
  - eapply ext_trans; [|apply e_express]. es.
Qed.
Lemma e_dropSkipped l : forall (s : st), e s (dropSkipped l s).
Proof.
  induction l as [|seg l IH]; intros s; cbn [dropSkipped]; [es|]. destruct (kmem seg (a_segs s)); [es|].
  eapply ext_trans; [|apply IH]. es.
Qed.
Lemma e_sendOne (s : st) : e s (sendOne P C s).
Proof.
  unfold sendOne. eapply ext_trans; [apply (e_dropSkipped (a_retxq s))|]. set (s1 := dropSkipped _ s). clearbody s1. cbv zeta.
  destruct (a_retxq s1) as [|seg l].
  - destruct (b_getNext (a_b s1)) as [seg b]. eapply ext_trans; [|apply e_sendInterest]. es.
  - eapply ext_trans; [|apply e_sendInterest]. es.
Qed.
Lemma e_iter n : forall (s : st), e s (iter n (sendOne P C) s).
Proof. induction n as [|n IH]; intros s; cbn; [apply ext_refl|]. eapply ext_trans; [apply e_sendOne|apply IH]. Qed.
Lemma e_schedule (s : st) : e s (schedulePackets P C s).
Proof.
  unfold schedulePackets. cbv zeta. destruct (a_nInFlight s <? 0); [eapply ext_trans; [|apply e_iter]; es|apply e_iter].
Qed.
Lemma e_recordTimeout seg (s : st) : e s (recordTimeout P C seg s).
Proof.
  unfold recordTimeout. destruct (_ || _); [|apply ext_refl]. cbv zeta. unfold decreaseWindow.
  eexists [_; _]. split; reflexivity.
Qed.
Lemma e_enqueue seg (s : st) : kmem seg (a_segs s) = true -> e s (enqueueForRetransmission seg s).
Proof.
  intros H. apply kmem_true in H. destruct H as [i Hi]. unfold enqueueForRetransmission. cbv zeta.
  destruct (0 <? a_nInFlight s); cbn [emit set_tr set_nInFlight set_retxq a_segs]; rewrite Hi; es.
Qed.
Lemma e_checkRto1 (s : st) has high seg : e s (fst (fst (checkRto1 (s, has, high) seg))).
Proof.
  unfold checkRto1. destruct (kget seg (a_segs s)) as [i|] eqn:E; [|apply ext_refl]. destruct (_ && _); [|apply ext_refl]. cbn [fst].
  eapply ext_trans; [|apply e_enqueue].
  - es.
  - cbn. apply kmem_true. eauto.
Qed.
Lemma e_fold l : forall (acc : st * bool * N), e (fst (fst acc)) (fst (fst (fold_left checkRto1 l acc))).
Proof.
  induction l as [|k l IH]; intros acc; [apply ext_refl|]. cbn [fold_left].
  destruct acc as [[s has] high]. eapply ext_trans; [apply (e_checkRto1 s has high k)|apply IH].
Qed.
Lemma e_checkRto order (s : st) : e s (checkRto P C order s).
Proof.
  unfold checkRto. destruct (isStopping s); [apply ext_refl|].
  pose proof (e_fold (visit_order order (keys (a_segs s))) (s, false, 0%N)) as H.
  destruct (fold_left _ _ _) as [[s1 has] high]. cbn [fst] in H. destruct (a_crashed s1); [exact H|]. cbv zeta.
  destruct has; [|exact H]. eapply ext_trans; [exact H|]. cbn [set_timer a_tr]. eapply ext_trans; [apply e_recordTimeout|apply e_schedule].
Qed.
Lemma m_adapt seg d (s : st) : ext mild (a_tr s) (a_tr (adaptWindow P C seg d s)).
Proof.
  unfold adaptWindow, increaseWindow, decreaseWindow. cbv zeta. destruct (d_mark d); cbn; [|now apply ext_cons].
  destruct (negb _); cbn; [|now apply ext_cons].
  destruct (_ || _); cbn; [|apply ext_refl].
  eapply ext_trans; [apply (ext_cons mild (ODecrMark seg)); reflexivity|now apply ext_cons].
Qed.
Lemma e_sample seg i rtt (s : st) : e s (sampleRtt P seg i rtt s).
Proof. unfold sampleRtt. destruct (_ && _); [|apply ext_refl]. es. Qed.
Lemma e_lost seg (s : st) : kmem seg (a_segs s) = true ->
  e s (let s1 := enqueueForRetransmission seg s in if a_crashed s1 then s1 else schedulePackets P C (recordTimeout P C seg s1)).
Proof.
  intros H. cbv zeta. pose proof (e_enqueue seg s H) as HE. destruct (a_crashed _); [exact HE|].
  eapply ext_trans; [exact HE|]. eapply ext_trans; [apply e_recordTimeout|apply e_schedule].
Qed.

(** what handleData adds *)
Lemma data_chunk seg d (s : st) t : ext mild t (a_tr s) ->
  exists l, a_tr (handleData P C seg d s) = l ++ t /\
    ((forallb (safe cb) l = true) \/
     (a_crashed (handleData P C seg d s) = true /\
      ((exists l1, l = OThrow :: ODeliver seg d :: l1 /\ cb d = true /\ forallb mild l1 = true) \/
       (exists l1, l = OThrow :: l1 /\ d_fbi d = FbiInvalid /\ l1 ++ t = a_tr s /\ forallb mild l1 = true)))).
Proof.
  intros Ht.
  assert (HS : forall s' : st, ext (safe cb) t (a_tr s') -> exists l, a_tr s' = l ++ t /\
    (forallb (safe cb) l = true \/ (a_crashed s' = true /\
      ((exists l1, l = OThrow :: ODeliver seg d :: l1 /\ cb d = true /\ forallb mild l1 = true) \/
       (exists l1, l = OThrow :: l1 /\ d_fbi d = FbiInvalid /\ l1 ++ t = a_tr s /\ forallb mild l1 = true))))).
  { intros s' (l & E & Hl). exists l. auto. }
  assert (HM : forall a b, ext mild a b -> ext (safe cb) a b).
  { intros a b. apply ext_mono. intros o Ho. apply meek_safe, mild_meek, Ho. }
  assert (HE : forall a b, ext meek a b -> ext (safe cb) a b).
  { intros a b. apply ext_mono. intros o. apply meek_safe. }
  unfold handleData. destruct (isStopping s); [now apply HS, HM|].
  unfold learnFbi.
  set (L := if b_hasFbi (a_b s) then (s, true) else _).
  assert (HL : match L with
               | (s1, true) => ext mild t (a_tr s1)
               | (s1, false) => ext (safe cb) t (a_tr s1) \/
                   (a_crashed s1 = true /\ d_fbi d = FbiInvalid /\ a_tr s1 = OThrow :: a_tr s)
               end).
  { unfold L. destruct (b_hasFbi (a_b s)); [exact Ht|]. destruct (d_fbi d) as [|n|] eqn:Ed.
    - exact Ht.
    - cbv zeta. set (s1 := cancelGreater n (set_b (b_setFbi n (a_b s)) s)).
      assert (H1 : ext mild t (a_tr s1)) by (eapply ext_trans; [exact Ht|]; apply (m_cancelGreater n (set_b (b_setFbi n (a_b s)) s))).
      destruct (_ && _).
      + left. eapply ext_trans; [apply HM; exact H1|]. apply HE. apply e_onFailure.
      + exact H1.
    - right. auto. }
  clearbody L. destruct L as [s1 cont]. destruct cont; cbn [negb].
  2:{ destruct HL as [HL|(Hc & Hf & E)]; [now apply HS|]. destruct Ht as (l1 & E1 & Hl1).
      exists (OThrow :: l1). split; [rewrite E, E1; reflexivity|]. right. split; [exact Hc|]. right. exists l1. auto. }
  destruct (kget seg (a_segs s1)) as [i|]; [|now apply HS, HM]. cbv zeta.
  set (s3 := if state_eqb _ _ then _ else _).
  assert (H3 : ext mild t (a_tr s3)) by (unfold s3; destruct (state_eqb _ _); exact HL). clearbody s3.
  pose proof (m_adapt seg d s3) as HA. set (s4 := adaptWindow P C seg d s3) in *. clearbody s4.
  assert (H4 : ext mild t (a_tr s4)) by (eapply ext_trans; eauto).
  unfold onData. set (s5 := emit (ODeliver seg d) _).
  destruct (cb d) eqn:Ecb.
  { change (a_crashed (throw s5)) with true. cbv iota. destruct H4 as (l1 & E1 & Hl1).
    exists (OThrow :: ODeliver seg d :: l1). split; [cbn; now rewrite E1|]. right. split; [reflexivity|]. left. exists l1. auto. }
  assert (H5 : ext (safe cb) t (a_tr s5)).
  { eapply ext_trans; [apply HM; exact H4|]. apply (ext_cons (safe cb) (ODeliver seg d)). cbn. now rewrite Ecb. }
  apply HS. destruct (a_crashed s5); [exact H5|].
  pose proof (e_sample seg i (a_now s1 - si_timeSent i) s5) as H6. set (s6 := sampleRtt _ _ _ _ s5) in *. clearbody s6.
  assert (H7 : ext (safe cb) t (a_tr (set_segs (kdel seg (a_segs s6)) s6))) by (eapply ext_trans; [exact H5|apply HE; exact H6]).
  destruct (b_allReceived _).
  - eapply ext_trans; [exact H7|]. unfold cancel. destruct (isStopping _); now apply ext_cons.
  - eapply ext_trans; [exact H7|]. apply HE, e_schedule.
Qed.

Lemma chunk_step (s : st) ev : exists l, a_tr (a_step P C s ev) = l ++ a_tr s /\ chunk cb (a_got ev) l /\
  (In OThrow l -> a_crashed (a_step P C s ev) = true).
Proof.
  assert (HE : forall s' : st, e s s' -> exists l, a_tr s' = l ++ a_tr s /\ chunk cb (a_got ev) l /\ (In OThrow l -> a_crashed s' = true)).
  { intros s' (l & E & Hl). exists l. split; [exact E|]. rewrite forallb_forall in Hl. split.
    - apply Ch_safe. apply forallb_forall. intros o Ho. apply meek_safe, Hl, Ho.
    - intros Hi. specialize (Hl _ Hi). discriminate. }
  unfold a_step. destruct (a_crashed s) eqn:Ec; [apply HE, ext_refl|].
  destruct ev as [seg d|seg rr|seg|order|dt|].
  - unfold fromFace. destruct (kget seg (a_segs s)) as [i|]; [|apply HE, ext_refl]. destruct (si_live i); [|apply HE, ext_refl].
    set (s1 := emit (OGotData seg d) _).
    assert (E1 : a_tr s1 = OGotData seg d :: a_tr s) by reflexivity.
    destruct (data_chunk seg d s1 (a_tr s) ltac:(rewrite E1; now apply ext_cons)) as (l & E & H).
    (* the arrival is part of what is added *)
    assert (Hgot : forall l1, l1 ++ a_tr s = a_tr s1 -> l1 = [OGotData seg d]).
    { intros l1 Hl1. rewrite E1 in Hl1. change (OGotData seg d :: a_tr s) with ([OGotData seg d] ++ a_tr s) in Hl1. now apply app_inv_tail in Hl1. }
    exists l. split; [exact E|].
    destruct H as [H|[Hk [(l1 & -> & H1 & H2)|(l1 & -> & H1 & H2 & H3)]]].
    + split; [now apply Ch_safe|]. intros Hi. rewrite forallb_forall in H. specialize (H _ Hi). discriminate.
    + split; [|intros _; exact Hk]. apply Ch_nack; [exact H1| |exact H2].
      (* everything between has the arrival below it *)
      destruct (data_chunk seg d s1 (a_tr s1) (ext_refl mild _)) as (l' & E' & _).
      rewrite E, E1 in E'. change (OGotData seg d :: a_tr s) with ([OGotData seg d] ++ a_tr s) in E'. rewrite app_assoc in E'.
      apply app_inv_tail in E'.
      assert (Hx : In (OGotData seg d) (OThrow :: ODeliver seg d :: l1)) by (rewrite E'; apply in_or_app; right; now left).
      destruct Hx as [Hx|[Hx|Hx]]; [discriminate|discriminate|exact Hx].
    + apply Hgot in H2. subst l1. split; [|intros _; exact Hk].
      apply (Ch_final cb _ seg d); [exact H1|reflexivity|now left|reflexivity].
  - unfold fromFace. destruct (kget seg (a_segs s)) as [i|] eqn:Ei; [|apply HE, ext_refl]. destruct (si_live i); [|apply HE, ext_refl].
    set (s1 := emit (OGotNack seg rr) _). apply HE.
    assert (H1 : e s s1) by (apply ext_cons; reflexivity).
    assert (Hm : kmem seg (a_segs s1) = true) by (apply kmem_true; eexists; apply kget_kset_same).
    clearbody s1. eapply ext_trans; [exact H1|]. unfold handleNack. destruct (isStopping s1); [apply ext_refl|].
    destruct rr; try apply e_handleFail; [now apply e_lost|apply ext_refl].
  - unfold fromFace. destruct (kget seg (a_segs s)) as [i|] eqn:Ei; [|apply HE, ext_refl]. destruct (si_live i); [|apply HE, ext_refl].
    set (s1 := emit (OGotExpiry seg) _). apply HE.
    assert (H1 : e s s1) by (apply ext_cons; reflexivity).
    assert (Hm : kmem seg (a_segs s1) = true) by (apply kmem_true; eexists; apply kget_kset_same).
    clearbody s1. eapply ext_trans; [exact H1|]. unfold handleLifetimeExpiration. destruct (isStopping s1); [apply ext_refl|].
    exact (e_lost seg (set_nTimeouts (a_nTimeouts s1 + 1) s1) Hm).
  - destruct (a_timer s); apply HE; [|apply ext_refl]. exact (e_checkRto order (set_timer false s)).
  - apply HE, ext_refl.
  - apply HE. unfold cancel. destruct (isStopping _); now apply ext_cons.
Qed.

Hypothesis Hcb : c_cbThrows C = d_appnack.
Notation start := (doRun P C (a_init P)).

Lemma m_noFail (s : st) n : a_hasFailure s = false -> b_hasFbi (a_b s) = false -> a_retxq s = [] -> ext mild (a_tr s) (a_tr (iter n (sendOne P C) s)).
Proof.
  revert s. induction n as [|n IH]; intros s H1 H2 H3; cbn [iter]; [apply ext_refl|].
  assert (H : ext mild (a_tr s) (a_tr (sendOne P C s)) /\ a_hasFailure (sendOne P C s) = false /\ b_hasFbi (a_b (sendOne P C s)) = false /\
              a_retxq (sendOne P C s) = []).
  { unfold sendOne. rewrite H3. cbn [dropSkipped set_retxq a_retxq b_getNext]. unfold sendInterest.
    cbn [negb andb set_b set_retxq a_b a_hasFailure b_hasFbi b_getNext]. rewrite H1, H2. cbn [andb].
    destruct (isStopping _); cbn; (split; [|auto]); [apply ext_refl|now apply ext_cons]. }
  destruct H as (G1 & G2 & G3 & G4). eapply ext_trans; [exact G1|now apply IH].
Qed.
Lemma start_clean : clean (a_tr start).
Proof.
  unfold doRun. change (b_allReceived (a_b (a_init P))) with false. cbv iota. unfold schedulePackets. cbv zeta.
  change (a_nInFlight (set_timer true (a_init P)) <? 0) with false. cbv iota.
  destruct (m_noFail (set_timer true (a_init P)) (Z.to_nat (p_floor P (a_cwnd (set_timer true (a_init P))) - a_nInFlight (set_timer true (a_init P))))
    eq_refl eq_refl eq_refl) as (l & E & H). cbn [set_timer a_init a_tr] in E. rewrite app_nil_r in E. cbn in E |- *. rewrite E.
  rewrite forallb_forall in H. split.
  - apply forallb_forall. intros o Ho. apply meek_safe, mild_meek, H, Ho.
  - intros rs Hi. specialize (H _ Hi). discriminate.
Qed.

Lemma fail_step (s : st) ev : True -> exists l, a_tr (a_step P C s ev) = l ++ a_tr s /\ outcome l (a_failure P C s ev) /\
  (In OThrow l -> a_crashed (a_step P C s ev) = true).
Proof.
  intros _. destruct (chunk_step s ev) as (l & E & Hc & Hk). exists l. split; [exact E|]. split; [|exact Hk].
  unfold a_failure. rewrite E, added_app. rewrite Hcb in *. pose proof (chunk_thrown d_appnack (a_got ev) l Hc) as HT.
  destruct (thrown d_appnack (a_got ev) (rev l)) as [f|] eqn:Et; [|exact HT].
  destruct f as [rs| | | | |seg d|seg d| |]; try contradiction.
  - destruct HT as (H1 & H2 & H3). split; [right; eauto|exact H3].
  - split; apply HT.
  - split; [|apply HT]. left.
    destruct Hc as [l0 Hl|seg0 d0 l0 Hd0 Hg0 Hl|]; [|now left|now left].
    pose proof (thrown_safe d_appnack (a_got ev) l0 Hl) as Hx. rewrite Et in Hx. destruct Hx as (rs & Hx & _). discriminate.
Qed.
Lemma a_failure_run_from es : a_failure_run P C es = fail_from _ _ (a_step P C) (a_failure P C) start es.
Proof.
  unfold a_failure_run. generalize start. induction es as [|ev es IH]; intros s; cbn; [reflexivity|].
  destruct (a_failure P C s ev); [reflexivity|apply IH].
Qed.
Lemma dead_step (s : st) ev : a_crashed s = true -> a_step P C s ev = s.
Proof. intros Hd. unfold a_step. now rewrite Hd. Qed.

Lemma adaptive_status es :
  pipeline_status (a_working (a_run P C es)) (a_history (a_run P C es)) =
  match a_failure_run P C es with
  | None => if a_working (a_run P C es) then None else Some 0
  | Some (FlAppNack _ _) => Some 3
  | Some _ => Some 1
  end.
Proof.
  rewrite a_failure_run_from.
  apply (status_fail st aevent a_tr (a_step P C) (a_failure P C) (fun _ => True) a_crashed); auto.
  - exact fail_step.
  - exact dead_step.
  - exact start_clean.
  - intros es' h1 rs h2 Eh. exact (adaptive_over P C es' h1 (OFail rs) h2 Eh eq_refl).
Qed.

Lemma adaptive_explained es f :
  a_failure_run P C es = Some f -> pipeline_explained (failure_justified r) r (a_history (a_run P C es)) f.
Proof.
  rewrite a_failure_run_from. intros Ef.
  pose proof (run_fail st aevent a_tr (a_step P C) (a_failure P C) (fun _ => True) a_crashed (fun _ _ _ => I) fail_step dead_step es start I) as HR.
  rewrite Ef in HR. destruct HR as (es1 & ev & es2 & l0 & l1 & l2 & _ & _ & HR). cbv zeta in HR.
  destruct HR as (_ & _ & I3 & I4 & _ & I6 & _). set (s1 := fold_left (a_step P C) es1 start) in *.
  set (h := a_history (a_run P C es)).
  assert (Eh : h = rev (a_tr s1) ++ rev l1 ++ rev l2).
  { unfold h, a_history, a_run. rewrite I6, !rev_app_distr, <- app_assoc. reflexivity. }
  assert (Hl1 : forall o, In o l1 -> In o h).
  { intros o Ho. rewrite Eh. apply in_or_app. right. apply in_or_app. left. now apply -> in_rev. }
  destruct (chunk_step s1 ev) as (l & E & Hc & Hk). rewrite I4 in E. apply app_inv_tail in E. subst l.
  unfold a_failure in I3. rewrite I4, added_app in I3. rewrite Hcb in *.
  pose proof (chunk_thrown d_appnack (a_got ev) l1 Hc) as HT. rewrite I3 in HT.
  destruct f as [rs| | | | |seg d|seg d| |]; try contradiction.
  - destruct HT as (H1 & _ & _). destruct (in_split _ _ (Hl1 _ H1)) as (h1 & h2 & Ex).
    pose proof (adaptive_failure P C es h1 rs h2 Ex) as HJ.
    destruct rs; try contradiction; cbn; eauto.
  - cbn. destruct HT as (H1 & H2 & H3). auto.
  - cbn. destruct HT as (H1 & H2 & H3). auto.
Qed.
End Adaptive.
