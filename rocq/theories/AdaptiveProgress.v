(** Progress of the adaptive pipelines: unless it has ended, a run against an honest
    producer always has an Interest in flight and the retransmission timer running. *)
From Verif Require Import Base BaseFacts PipelineBase PipelineSpec FetcherModel AdaptiveModel AdaptiveProofs AdaptiveInv AdaptiveInv2.
From Verif Require Import AdaptiveFlight AdaptiveWindow AdaptiveTheorems.

Section Progress.
Variable C : aconfig.
Context {W R : Type}.
Variable P : policy W R.
Notation st := (@astate W R).
Implicit Types s : st.
Notation r := (c_maxRetries C).
Notation hasFbi s := (b_hasFbi (a_b s)).
Notation last s := (b_last (a_b s)).
Notation stopping s := (b_stopping (a_b s)).
Notation allrec s := (b_allReceived (a_b s)).

Definition Busy s : Prop := exists k, flk k (a_segs s) = true.
Definition good s : Prop := stopping s = true \/ a_hasFailure s = true \/ (allrec s = false /\ Busy s).

(** ** one Interest *)
Lemma flk_express seg retx s : flk seg (a_segs (express P seg retx s)) = true.
Proof. unfold express. cbn. destruct retx; cbn; rewrite flk_kset, N.eqb_refl; reflexivity. Qed.

Lemma good_express seg retx s : allrec s = false -> good (express P seg retx s).
Proof.
  intros H. right. right. split; [|exists seg; apply flk_express].
  unfold express. destruct retx; exact H.
Qed.

Lemma handleFail_ends seg rs s :
  stopping s = false -> (hasFbi s = true -> (seg <= last s)%N) ->
  stopping (handleFail seg rs s) = true \/ a_hasFailure (handleFail seg rs s) = true.
Proof.
  intros Hs Hl. unfold handleFail, onFailure, cancel, isStopping. rewrite Hs.
  destruct (hasFbi s) eqn:E; cbn [andb negb].
  - rewrite (proj2 (N.leb_le _ _) (Hl eq_refl)). left. reflexivity.
  - cbn. destruct (kdel seg (a_segs s)) eqn:Ek; cbn.
    + rewrite Hs. left. reflexivity.
    + right. reflexivity.
Qed.

Lemma handleFail_mono seg rs s :
  (stopping s = true -> stopping (handleFail seg rs s) = true) /\
  (a_hasFailure s = true -> a_hasFailure (handleFail seg rs s) = true).
Proof.
  unfold handleFail, onFailure, cancel, isStopping. destruct (stopping s) eqn:Hs; [auto|].
  split; [discriminate|]. intros Hf.
  destruct (_ && _); [cbn; exact Hf|]. destruct (negb _); [|exact Hf]. cbn.
  destruct (kdel seg (a_segs s)); cbn; [rewrite Hs; exact Hf|reflexivity].
Qed.

Lemma dropSkipped_failure q : forall s, a_hasFailure (dropSkipped q s) = a_hasFailure s.
Proof. induction q; intros s; cbn; [reflexivity|]. destruct (kmem _ _); [reflexivity|]. rewrite IHq. reflexivity. Qed.
Lemma dropSkipped_b q : forall s, a_b (dropSkipped q s) = a_b s.
Proof. induction q; intros s; cbn; [reflexivity|]. destruct (kmem _ _); [reflexivity|]. rewrite IHq. reflexivity. Qed.

Lemma sendInterest_mono seg retx s :
  (stopping s = true -> stopping (sendInterest P C seg retx s) = true) /\
  (a_hasFailure s = true -> a_hasFailure (sendInterest P C seg retx s) = true).
Proof.
  unfold sendInterest, isStopping. destruct (stopping s) eqn:Hs; [auto|]. split; [discriminate|]. intros Hf.
  destruct (_ && _); [exact Hf|]. destruct (_ && _); [exact Hf|].
  destruct retx; [|exact Hf]. destruct (kget seg _); [|exact Hf].
  destruct (_ && _); [|exact Hf]. now apply handleFail_mono.
Qed.

Lemma sendOne_mono s :
  (stopping s = true -> stopping (sendOne P C s) = true) /\
  (a_hasFailure s = true -> a_hasFailure (sendOne P C s) = true).
Proof.
  unfold sendOne. set (s1 := dropSkipped (a_retxq s) s).
  assert (Hb : a_b s1 = a_b s) by apply dropSkipped_b.
  assert (Hf : a_hasFailure s1 = a_hasFailure s) by apply dropSkipped_failure.
  clearbody s1. rewrite <- Hb, <- Hf.
  destruct (a_retxq s1).
  - cbn [b_getNext]. match goal with |- context [set_b ?b s1] => exact (sendInterest_mono (b_next (a_b s1)) false (set_b b s1)) end.
  - apply (sendInterest_mono n true (set_retxq l s1)).
Qed.

(** if nothing is in flight, the counter is not positive *)
Lemma idle_count s : Running C s -> (forall k, flk k (a_segs s) = false) -> a_nInFlight s <= 0.
Proof.
  intros HR Hn. pose proof (R_cnt _ _ HR) as Hc.
  enough (Z.of_nat (length (a_segs s)) <= count (fun k => kmem k (a_segs s)) (a_retxq s)) by lia.
  unfold count. apply inj_le.
  replace (length (a_segs s)) with (length (keys (a_segs s))) by (unfold keys; apply map_length).
  apply NoDup_incl_length; [apply (R_nd _ _ HR)|].
  intros k Hk. apply kmem_keys in Hk. apply filter_In. split; [|exact Hk].
  apply kmem_true in Hk. destruct Hk as [i Hi]. apply (R_q _ _ HR k i Hi).
  specialize (Hn k). unfold flk in Hn. rewrite Hi in Hn. destruct (si_state i); cbn in Hn; congruence.
Qed.

Lemma idle_or_busy s : Busy s \/ (forall k, flk k (a_segs s) = false).
Proof.
  destruct (existsb (fun k => flk k (a_segs s)) (keys (a_segs s))) eqn:E.
  - left. apply existsb_exists in E. destruct E as (k & _ & H). now exists k.
  - right. intros k. destruct (flk k (a_segs s)) eqn:H; [|reflexivity].
    assert (Hk : In k (keys (a_segs s))) by (apply kmem_keys; now apply flk_mem).
    assert (T : existsb (fun k => flk k (a_segs s)) (keys (a_segs s)) = true) by (apply existsb_exists; eauto).
    congruence.
Qed.

(** everything up to the final segment was delivered: complete *)
Lemma covered_complete s n :
  Always C s -> hasFbi s = true -> last s = n ->
  (forall k, (k <= n)%N -> In k (dl (a_tr s))) -> allrec s = true.
Proof.
  intros HA Hf <- Hall. unfold b_allReceived. rewrite Hf, (A_recv _ _ HA).
  assert (H : (S (N.to_nat (last s)) <= length (dl (a_tr s)))%nat).
  { rewrite <- (length_upto (S (N.to_nat (last s)))). apply NoDup_incl_length.
    - unfold upto. apply FinFun.Injective_map_NoDup; [intros x y; apply Nat2N.inj|apply seq_NoDup].
    - intros k Hk. apply in_upto in Hk. apply Hall. lia. }
  replace (0 <? Z.of_nat (length (dl (a_tr s)))) with true by lia. cbn [andb]. lia.
Qed.

Lemma sendOne_first s : Live C s -> stopping s = false -> allrec s = false -> good (sendOne P C s).
Proof.
  intros HL Hs Hall. unfold sendOne.
  assert (HL' : Live C (set_retxq (a_retxq s) s)) by (destruct s; exact HL).
  destruct (live_dropSkipped C _ _ HL') as (HL1 & (Eb & Es & _) & Hhd).
  set (s1 := dropSkipped (a_retxq s) s) in *. rewrite <- Es in Hhd. rewrite <- Eb in Hs, Hall.
  clearbody s1. clear s HL HL' Eb Es. destruct HL1 as [HA HR]. specialize (HR Hs).
  destruct (a_retxq s1) as [|seg q] eqn:Eq.
  - cbn [b_getNext]. unfold sendInterest, isStopping.
    cbn [set_b a_b b_stopping b_hasFbi b_last b_next a_hasFailure negb andb]. rewrite Hs.
    destruct (hasFbi s1 && N.ltb (last s1) (b_next (a_b s1))) eqn:E1.
    + right. right. split; [exact Hall|]. cbn [set_b a_segs].
      destruct (idle_or_busy s1) as [H|H]; [exact H|exfalso].
      apply andb_prop in E1. destruct E1 as [Ef El]. apply N.ltb_lt in El.
      assert (Hnone : forall k, kmem k (a_segs s1) = false).
      { intros k. destruct (kmem k (a_segs s1)) eqn:Ek; [|reflexivity]. exfalso.
        apply kmem_true in Ek. destruct Ek as [i Hi].
        specialize (H k). unfold flk in H. rewrite Hi in H.
        assert (Hst : si_state i = InRetxQueue) by (destruct (si_state i); cbn in H; congruence).
        pose proof (R_q _ _ HR k i Hi Hst) as Hq. rewrite Eq in Hq. contradiction. }
      assert (Hnf : (last s1 < nf (a_tr s1))%N).
      { destruct (R_phase _ _ HR) as [Hp|[[_ Hp]|[Hp _]]]; [lia|exact Hp|congruence]. }
      rewrite (covered_complete s1 (last s1) HA Ef eq_refl) in Hall; [discriminate|].
      intros k Hk. destruct (R_cov _ _ HR k) as [Hd|[Hd|[[_ Hd]|[Hd _]]]]; [lia|exact Hd| |lia|congruence].
      rewrite Hnone in Hd. discriminate.
    + destruct (a_hasFailure s1) eqn:Ef; [right; left; exact Ef|].
      apply good_express. exact Hall.
  - specialize (Hhd _ _ eq_refl). unfold sendInterest, isStopping. cbn [set_retxq a_b a_retxCount]. rewrite Hs.
    destruct (hasFbi s1 && N.ltb (last s1) seg) eqn:E1.
    { exfalso. apply andb_prop in E1. destruct E1 as [Ef El]. apply N.ltb_lt in El.
      pose proof (R_last _ _ HR seg Ef Hhd). lia. }
    cbn [negb andb]. clear E1.
    destruct (kget seg (a_retxCount s1)) as [m|]; [|apply good_express; exact Hall].
    destruct (_ && _); [|apply good_express; exact Hall].
    match goal with |- good (handleFail _ _ ?x) => destruct (handleFail_ends seg (RMaxRetries seg) x) as [H|H] end.
    + exact Hs.
    + cbn. intros Ef. apply (R_last _ _ HR seg Ef Hhd).
    + left. exact H.
    + right. left. exact H.
Qed.

Lemma sendOne_good s : Live C s -> good s -> good (sendOne P C s).
Proof.
  intros HL [H|[H|[H1 H2]]].
  - left. now apply sendOne_mono.
  - right. left. now apply sendOne_mono.
  - destruct (stopping s) eqn:Hs; [left; now apply sendOne_mono|]. now apply sendOne_first.
Qed.

Lemma iter_good n : forall s, Live C s -> good s -> good (iter n (sendOne P C) s).
Proof. induction n; intros s HL H; cbn; [exact H|]. apply IHn; [now apply live_sendOne|now apply sendOne_good]. Qed.

Lemma schedule_good s :
  Live C s -> stopping s = false -> allrec s = false -> 1 <= p_floor P (a_cwnd s) -> good (schedulePackets P C s).
Proof.
  intros HL Hs Hall Hw. unfold schedulePackets.
  set (s1 := if a_nInFlight s <? 0 then emit OAssert s else s).
  assert (H : Live C s1 /\ a_b s1 = a_b s /\ a_cwnd s1 = a_cwnd s /\ a_nInFlight s1 = a_nInFlight s).
  { unfold s1. destruct (a_nInFlight s <? 0); [|auto].
    split; [apply live_neutral; cbn; auto|auto]. }
  clearbody s1. destruct H as (HL1 & Eb & Ew & En). rewrite <- Eb in Hs, Hall. rewrite <- Ew in *.
  clear s HL Eb Ew En. 
  destruct (Z.to_nat (p_floor P (a_cwnd s1) - a_nInFlight s1)) as [|n] eqn:Ek; cbn [iter].
  - right. right. split; [exact Hall|]. destruct (idle_or_busy s1) as [H|H]; [exact H|].
    destruct HL1 as [_ HR]. pose proof (idle_count s1 (HR Hs) H). lia.
  - apply iter_good; [now apply live_sendOne|]. now apply sendOne_first.
Qed.

(** ** what no step undoes *)
Definition ext (t t' : list pobs) : Prop := exists l, t' = l ++ t.
Lemma ext_refl t : ext t t. Proof. now exists []. Qed.
Lemma ext_tl o t : ext t (o :: t). Proof. now exists [o]. Qed.
Lemma ext_tran t1 t2 t3 : ext t1 t2 -> ext t2 t3 -> ext t1 t3.
Proof. intros [l1 ->] [l2 ->]. exists (l2 ++ l1). now rewrite app_assoc. Qed.
Lemma ext_in t t' o : ext t t' -> In o t -> In o t'.
Proof. intros [l ->] H. apply in_or_app. now right. Qed.
Definition mono s s' : Prop :=
  ext (a_tr s) (a_tr s') /\ (stopping s = true -> stopping s' = true) /\
  (a_timer s' = a_timer s \/ stopping s' = true) /\
  (a_crashed s' = true -> a_crashed s = true \/ In OThrow (a_tr s')).
Definition monof s s' : Prop := mono s s' /\ (a_hasFailure s = true -> a_hasFailure s' = true).

Lemma mono_refl s : mono s s.
Proof. split; [apply ext_refl|auto]. Qed.
Lemma mono_trans a b c : mono a b -> mono b c -> mono a c.
Proof.
  intros (I1 & S1 & T1 & K1) (I2 & S2 & T2 & K2). split; [eapply ext_tran; eauto|]. split; [auto|]. split.
  - destruct T2 as [T2|T2]; [|auto]. destruct T1 as [T1|T1]; [left; congruence|right; auto].
  - intros H. destruct (K2 H) as [H'|H']; [|auto]. destruct (K1 H'); eauto using ext_in.
Qed.
Lemma monof_refl s : monof s s.
Proof. split; [apply mono_refl|auto]. Qed.
Lemma monof_trans a b c : monof a b -> monof b c -> monof a c.
Proof. intros [H1 H2] [H3 H4]. split; [eapply mono_trans; eauto|auto]. Qed.
Lemma monof_emit o s s' : a_tr s' = o :: a_tr s -> a_b s' = a_b s -> a_timer s' = a_timer s ->
  a_hasFailure s' = a_hasFailure s -> a_crashed s' = a_crashed s \/ o = OThrow -> monof s s'.
Proof.
  intros E1 E2 E3 E4 E5. split; [|congruence]. split; [rewrite E1; apply ext_tl|].
  split; [congruence|]. split; [left; exact E3|]. destruct E5 as [<-|E5]; [auto|]. intros _. right. rewrite E1, E5. now left.
Qed.
Lemma monof_same s s' : a_tr s' = a_tr s -> stopping s' = stopping s -> a_timer s' = a_timer s ->
  a_hasFailure s' = a_hasFailure s -> a_crashed s' = a_crashed s -> monof s s'.
Proof.
  intros E1 E2 E3 E4 E5. split; [|congruence]. split; [rewrite E1; apply ext_refl|].
  split; [congruence|]. split; [left; exact E3|]. rewrite E5. auto.
Qed.

Lemma mf_cancel s : monof s (cancel s).
Proof.
  unfold cancel, isStopping. destruct (stopping s) eqn:E; [apply monof_refl|].
  split; [|auto]. split; [apply ext_refl|]. split; [reflexivity|]. split; [right; reflexivity|]. cbn. auto.
Qed.
Lemma mf_onFailure rs s : monof s (onFailure rs s).
Proof.
  unfold onFailure. destruct (isStopping s); [apply monof_refl|].
  eapply monof_trans; [apply mf_cancel|]. eapply monof_emit; (reflexivity || (left; reflexivity) || (right; reflexivity)).
Qed.
Lemma mf_cancelGreater n s : monof s (cancelGreater n s).
Proof.
  split; [|auto]. split; [|auto]. destruct (cancelGreater_tr n s) as (l & _ & ->). now exists l.
Qed.
Lemma mf_handleFail seg rs s : monof s (handleFail seg rs s).
Proof.
  split; [|apply handleFail_mono].
  unfold handleFail. destruct (isStopping s); [apply mono_refl|]. destruct (b_hasFbi (a_b s) && _); [apply mf_onFailure|].
  destruct (negb _); [|apply mono_refl]. cbv zeta. destruct (a_segs _) eqn:E.
  - eapply mono_trans; [|apply mf_onFailure]. eapply monof_emit; (reflexivity || (left; reflexivity) || (right; reflexivity)).
  - match goal with |- mono _ (set_failReason _ (set_failedSeg _ (set_hasFailure _ (cancelGreater ?k ?x)))) =>
      eapply (mono_trans _ (cancelGreater k x)); [|split; [apply ext_refl|auto]];
      eapply (mono_trans _ x); [eapply monof_emit; (reflexivity || (left; reflexivity) || (right; reflexivity))|apply mf_cancelGreater] end.
Qed.
Lemma mf_express seg retx s : monof s (express P seg retx s).
Proof. unfold express. destruct retx; eapply monof_emit; (reflexivity || (left; reflexivity) || (right; reflexivity)). Qed.
Lemma mf_sendInterest seg retx s : monof s (sendInterest P C seg retx s).
Proof.
  unfold sendInterest. destruct (isStopping s); [apply monof_refl|]. destruct (_ && _); [apply monof_refl|].
  destruct (_ && _); [apply monof_refl|]. destruct retx; [|apply mf_express].
  destruct (kget seg (a_retxCount s)); cbv zeta; [destruct (_ && _)|].
  - eapply monof_trans; [|apply mf_handleFail]. apply monof_same; reflexivity.
  - eapply monof_trans; [|apply mf_express]. apply monof_same; reflexivity.
  - eapply monof_trans; [|apply mf_express]. apply monof_same; reflexivity.
Qed.
Lemma mf_dropSkipped q : forall s, monof s (dropSkipped q s).
Proof.
  induction q as [|k q IH]; intros s; cbn [dropSkipped]; [apply monof_same; reflexivity|].
  destruct (kmem k (a_segs s)); [apply monof_same; reflexivity|].
  eapply monof_trans; [|apply IH]. eapply monof_emit; (reflexivity || (left; reflexivity) || (right; reflexivity)).
Qed.
Lemma mf_sendOne s : monof s (sendOne P C s).
Proof.
  unfold sendOne. cbv zeta. pose proof (mf_dropSkipped (a_retxq s) s) as H. set (s1 := dropSkipped _ s) in *.
  destruct (a_retxq s1); [destruct (b_getNext (a_b s1)) as [k b] eqn:E|].
  all: eapply monof_trans; [exact H|]; eapply monof_trans; [|apply mf_sendInterest]; apply monof_same; try reflexivity.
  unfold b_getNext in E. injection E as _ <-. reflexivity.
Qed.
Lemma mf_iter n : forall s, monof s (iter n (sendOne P C) s).
Proof. induction n as [|n IH]; intros s; cbn [iter]; [apply monof_refl|]. eapply monof_trans; [apply mf_sendOne|apply IH]. Qed.
Lemma mf_schedule s : monof s (schedulePackets P C s).
Proof.
  unfold schedulePackets. cbv zeta. eapply monof_trans; [|apply mf_iter].
  destruct (_ <? _); [eapply monof_emit; (reflexivity || (left; reflexivity) || (right; reflexivity))|apply monof_refl].
Qed.
Lemma mf_enqueue seg s : monof s (enqueueForRetransmission seg s).
Proof.
  unfold enqueueForRetransmission. cbv zeta.
  match goal with |- context [set_nInFlight _ ?x] => apply (monof_trans _ x) end.
  { destruct (0 <? a_nInFlight s); [apply monof_refl|eapply monof_emit; (reflexivity || (left; reflexivity) || (right; reflexivity))]. }
  destruct (kget seg _); [apply monof_same; reflexivity|eapply monof_emit; (reflexivity || (left; reflexivity) || (right; reflexivity))].
Qed.
Lemma mf_recordTimeout seg s : monof s (recordTimeout P C seg s).
Proof.
  unfold recordTimeout. destruct (_ || _); [|apply monof_refl].
  split; [|auto]. split; [eexists [_; _]; reflexivity|auto].
Qed.
Lemma mf_checkRto1 s has high seg : monof s (fst (fst (checkRto1 (s, has, high) seg))).
Proof.
  unfold checkRto1. destruct (kget seg (a_segs s)); [|apply monof_refl]. destruct (_ && _); [|apply monof_refl].
  cbv zeta. cbn [fst]. eapply monof_trans; [|apply mf_enqueue]. eapply monof_emit; (reflexivity || (left; reflexivity) || (right; reflexivity)).
Qed.
Lemma mf_checkRto_fold l : forall acc, monof (fst (fst acc)) (fst (fst (fold_left checkRto1 l acc))).
Proof.
  induction l as [|k l IH]; intros [[s has] high]; cbn [fold_left]; [apply monof_refl|].
  eapply monof_trans; [apply mf_checkRto1|apply IH].
Qed.
Lemma mono_learnFbi d s : mono s (fst (learnFbi d s)).
Proof.
  unfold learnFbi. destruct (hasFbi s); [apply mono_refl|]. destruct (d_fbi d) as [|n|]; [apply mono_refl| |].
  - assert (H : mono s (cancelGreater n (set_b (b_setFbi n (a_b s)) s))).
    { eapply mono_trans; [|apply mf_cancelGreater]. apply monof_same; reflexivity. }
    cbv zeta. set (s1 := cancelGreater n _) in *. clearbody s1. destruct (_ && _); cbn [fst].
    + eapply mono_trans; [exact H|apply mf_onFailure].
    + eapply mono_trans; [exact H|]. split; [apply ext_refl|auto].
  - cbn [fst]. split; [apply ext_tl|]. split; [auto|]. split; [auto|]. intros _. right. now left.
Qed.
Lemma mf_adapt seg d s : monof s (adaptWindow P C seg d s).
Proof.
  unfold adaptWindow. destruct (d_mark d); cbv zeta; [|eapply monof_emit; (reflexivity || (left; reflexivity) || (right; reflexivity))].
  destruct (negb _); [destruct (_ || _)|].
  - split; [|auto]. split; [eexists [_; _]; reflexivity|auto].
  - apply monof_same; reflexivity.
  - eapply monof_emit; (reflexivity || (left; reflexivity) || (right; reflexivity)).
Qed.
Lemma mf_sample seg i rtt s : monof s (sampleRtt P seg i rtt s).
Proof. unfold sampleRtt. destruct (_ && _); [eapply monof_emit; (reflexivity || (left; reflexivity) || (right; reflexivity))|apply monof_refl]. Qed.

(** the state in which handleData decides about completion *)
Definition taken seg (d : data) (i : seginfo) s : st :=
  onData C seg d (adaptWindow P C seg d
    (if state_eqb (si_state i) InRetxQueue then set_highData (N.max (a_highData s) seg) s
     else set_nInFlight (a_nInFlight s - 1) (set_highData (N.max (a_highData s) seg) s))).

Lemma mf_taken seg d i s : monof s (taken seg d i s).
Proof.
  unfold taken. match goal with |- context [adaptWindow P C seg d ?x] => apply (monof_trans _ x) end.
  { destruct (state_eqb _ _); apply monof_same; reflexivity. }
  eapply monof_trans; [apply mf_adapt|]. unfold onData. destruct (c_cbThrows C d).
  - split; [|intros H; exact H]. split; [eexists [_; _]; reflexivity|]. split; [intros H; exact H|]. split; [left; reflexivity|cbn; auto].
  - split; [|intros H; exact H]. split; [eexists [_]; reflexivity|]. split; [intros H; exact H|]. split; [left; reflexivity|cbn; auto].
Qed.

Lemma handleData_unfold seg d s :
  handleData P C seg d s =
  if stopping s then s
  else let '(s, continue) := learnFbi d s in
       if negb continue then s
       else match kget seg (a_segs s) with
            | None => s
            | Some i =>
                let s1 := taken seg d i s in
                if a_crashed s1 then s1
                else
                  let s2 := sampleRtt P seg i (a_now s - si_timeSent i) s1 in
                  let s3 := set_segs (kdel seg (a_segs s2)) s2 in
                  if allrec s3 then emit ODone (cancel s3) else schedulePackets P C s3
            end.
Proof. reflexivity. Qed.

Lemma mono_handleData seg d s : mono s (handleData P C seg d s).
Proof.
  rewrite handleData_unfold. destruct (stopping s); [apply mono_refl|].
  pose proof (mono_learnFbi d s) as H. destruct (learnFbi d s) as [s1 cont]. cbn [fst] in H.
  destruct (negb cont); [exact H|]. destruct (kget seg (a_segs s1)) as [i|]; [|exact H].
  cbv zeta.
  assert (H1 : mono s (taken seg d i s1)) by (eapply mono_trans; [exact H|apply mf_taken]).
  set (s2 := taken seg d i s1) in *. clearbody s2. destruct (a_crashed s2); [exact H1|].
  set (s3 := sampleRtt P seg i (a_now s1 - si_timeSent i) s2).
  assert (H2 : mono s (set_segs (kdel seg (a_segs s3)) s3)).
  { eapply mono_trans; [exact H1|]. eapply mono_trans; [apply mf_sample|]. apply monof_same; reflexivity. }
  set (s4 := set_segs _ s3) in *. clearbody s4. destruct (allrec s4).
  - eapply mono_trans; [exact H2|]. eapply mono_trans; [apply mf_cancel|]. eapply monof_emit; (reflexivity || (left; reflexivity) || (right; reflexivity)).
  - eapply mono_trans; [exact H2|apply mf_schedule].
Qed.

Lemma live_taken seg d i s :
  Live C s -> stopping s = false -> a_crashed s = false -> kget seg (a_segs s) = Some i -> In (OGotData seg d) (a_tr s) ->
  let s1 := taken seg d i s in
  let s2 := sampleRtt P seg i (a_now s - si_timeSent i) s1 in
  let s3 := set_segs (kdel seg (a_segs s2)) s2 in
  a_crashed s1 = false -> Live C s3 /\ stopping s3 = false.
Proof.
  intros [HA HR] Hs1 Hc1 Ei Hgot. specialize (HR Hs1).
  set (v := if state_eqb (si_state i) InRetxQueue then a_nInFlight s else a_nInFlight s - 1).
  assert (Hm : kmem seg (a_segs s) = true) by (apply kmem_true; eauto).
  assert (Hlt : (seg < nf (a_tr s))%N) by (apply (R_keys _ _ HR); auto).
  assert (Hnew : ~ In seg (dl (a_tr s))).
  { intros H. apply (R_fresh _ _ HR) in H. congruence. }
  pose proof (always_delivered C P seg d v s HA Hs1 Hlt Hnew Hgot) as HA1.
  destruct (eff_delivered C P seg d v s) as (l1 & HE1 & Hn1 & Hl1).
  unfold taken.
  replace (if state_eqb (si_state i) InRetxQueue
           then set_highData (N.max (a_highData s) seg) s
           else set_nInFlight (a_nInFlight s - 1) (set_highData (N.max (a_highData s) seg) s))
    with (set_nInFlight v (set_highData (N.max (a_highData s) seg) s))
    by (unfold v; destruct (state_eqb (si_state i) InRetxQueue); destruct s; reflexivity).
  unfold onData. change (emit (ODeliver seg d) _) with (delivered C P seg d v s).
  set (s1 := delivered C P seg d v s) in *. clearbody s1. cbv zeta.
  destruct (c_cbThrows C d); [cbn; discriminate|]. intros _.
  assert (Hr : 0 <= a_now s - si_timeSent i) by (pose proof (R_time _ _ HR _ _ Ei); lia).
  pose proof (always_sampleRtt C P seg i _ s1 Hr HA1) as HA2.
  destruct (sampleRtt_eff P seg i (a_now s - si_timeSent i) s1) as (l2 & HE2 & Hn2 & Hl2).
  set (s2 := sampleRtt P seg i (a_now s - si_timeSent i) s1) in *. clearbody s2.
  pose proof (eff_trans _ _ _ _ _ HE1 HE2) as HE.
  assert (HR2 : Running C (set_segs (kdel seg (a_segs s2)) s2)).
  { apply (running_deliver C seg i (l2 ++ l1) s s2); auto; [now rewrite dl_app, Hl1, Hl2|].
    rewrite Hn2. exact Hn1. }
  apply (always_kdel C seg) in HA2. split; [split; auto|].
  change (stopping s2 = false). rewrite (E_stop _ _ _ HE). exact Hs1.
Qed.

(** ** every step keeps the pipeline busy *)
Definition Prog s : Prop :=
  a_crashed s = false -> stopping s = false ->
  a_timer s = true /\ (a_hasFailure s = false -> allrec s = false /\ Busy s).

Lemma prog_good s : (stopping s = false -> a_timer s = true) -> good s -> Prog s.
Proof.
  intros Ht [H|[H|H]] _ Hs; [congruence| |]; (split; [auto|]); [congruence|auto].
Qed.

Lemma prog_schedule s :
  Live C s -> stopping s = false -> a_timer s = true -> (a_hasFailure s = false -> allrec s = false) ->
  1 <= p_floor P (a_cwnd (schedulePackets P C s)) -> Prog (schedulePackets P C s).
Proof.
  intros HL Hs Ht Hall Hw _ Hs'. destruct (mf_schedule s) as [(_ & _ & T & _) F].
  split; [destruct T; congruence|]. intros Hf.
  assert (Hf0 : a_hasFailure s = false) by (destruct (a_hasFailure s); [rewrite F in Hf by reflexivity; discriminate|reflexivity]).
  destruct (sw_schedule P C s) as [E _]. rewrite E in Hw.
  destruct (schedule_good s HL Hs (Hall Hf0) Hw) as [H|[H|H]]; [congruence|congruence|exact H].
Qed.

Lemma learnFbi_keeps seg d s :
  kmem seg (a_segs s) = true -> (forall m, d_fbi d = FbiSegment m -> (seg <= m)%N) ->
  snd (learnFbi d s) = true -> kmem seg (a_segs (fst (learnFbi d s))) = true.
Proof.
  intros Hm Hd. unfold learnFbi. destruct (hasFbi s); [auto|]. destruct (d_fbi d) as [|n|]; [auto| |cbn; discriminate].
  specialize (Hd n eq_refl). cbv zeta. destruct (_ && _); cbn [fst snd]; [discriminate|]. intros _.
  cbn. rewrite (kmem_filter (fun k => negb (N.ltb n k))), Hm.
  destruct (N.ltb_spec n seg); [lia|reflexivity].
Qed.

Lemma prog_handleData seg d s :
  Live C s -> stopping s = false -> a_crashed s = false -> kmem seg (a_segs s) = true -> a_timer s = true ->
  (forall m, d_fbi d = FbiSegment m -> (seg <= m)%N) ->
  1 <= p_floor P (a_cwnd (handleData P C seg d (emit (OGotData seg d) s))) ->
  Prog (handleData P C seg d (emit (OGotData seg d) s)).
Proof.
  intros HL Hs Hc Hm Ht Hd. rewrite handleData_unfold. cbn [emit set_tr a_b]. rewrite Hs.
  assert (Hl0 : (seg < nf (a_tr s))%N) by (destruct HL as [_ HR]; apply (R_keys _ _ (HR Hs)); auto).
  pose proof (inv_learnFbi C seg d s Hs Hc Hl0 HL) as H.
  pose proof (learnFbi_keeps seg d (emit (OGotData seg d) s) Hm Hd) as K.
  cbn [emit] in H, K. destruct (learnFbi d _) as [s1 cont]. cbn [fst snd] in K.
  destruct H as (HI & Hcont & Hend). destruct cont; cbn [negb].
  2:{ intros _ Hc1 Hs1. destruct (Hend eq_refl); congruence. }
  destruct (Hcont eq_refl) as (Hs1 & Hc1 & Hgot & Ht1). specialize (K eq_refl).
  apply inv_live in HI; [|exact Hc1]. clear Hcont Hend. rewrite Ht in Ht1. clear s Hs Hc Hm Hl0 HL Ht. rename s1 into s.
  apply kmem_true in K. destruct K as [i Ei]. rewrite Ei. cbv zeta.
  pose proof (live_taken seg d i s HI Hs1 Hc1 Ei Hgot) as HT. cbv zeta in HT.
  assert (HM : mono s (sampleRtt P seg i (a_now s - si_timeSent i) (taken seg d i s))).
  { eapply mono_trans; [apply mf_taken|apply mf_sample]. }
  destruct (a_crashed (taken seg d i s)) eqn:Ec.
  { intros _ H. congruence. }
  specialize (HT eq_refl). set (s2 := sampleRtt _ _ _ _ _) in *.
  destruct HM as (_ & _ & HM & _). destruct HT as [HL3 Hs3]. change (stopping s2 = false) in Hs3.
  destruct (allrec (set_segs (kdel seg (a_segs s2)) s2)) eqn:Ea.
  - intros _ _. unfold cancel, isStopping. cbn [set_segs a_b]. rewrite Hs3. cbn. discriminate.
  - intros Hw. apply prog_schedule; auto. cbn. destruct HM; congruence.
Qed.

Lemma prog_lost seg s :
  stopping s = false -> kmem seg (a_segs s) = true -> slack s -> lostIn seg (a_tr s) -> Live C s ->
  a_timer s = true -> (a_hasFailure s = false -> allrec s = false) ->
  let s' := (let s1 := enqueueForRetransmission seg s in
             if a_crashed s1 then s1 else schedulePackets P C (recordTimeout P C seg s1)) in
  1 <= p_floor P (a_cwnd s') -> Prog s'.
Proof.
  intros Hs Hm Hsl (o & Ho1 & Ho2) HL Ht Hall. destruct (live_enqueue C seg s Hm Hsl HL) as (HL1 & HK & _).
  assert (Eb : a_b (enqueueForRetransmission seg s) = a_b s /\ a_hasFailure (enqueueForRetransmission seg s) = a_hasFailure s).
  { unfold enqueueForRetransmission. destruct (0 <? a_nInFlight s); cbn; destruct (kget seg _); split; reflexivity. }
  cbv zeta. set (s1 := enqueueForRetransmission seg s) in *. clearbody s1.
  destruct (a_crashed s1) eqn:Ec; [intros _ H; congruence|].
  unfold keep in HK. destruct HK as (_ & HS & HT & E & _ & K). destruct Eb as [Eb Ef].
  assert (HL2 : Live C (recordTimeout P C seg s1)).
  { apply live_recordTimeout; [| |exact HL1].
    - rewrite E. destruct HL as [_ HR]. apply (R_keys _ _ (HR Hs)); auto.
    - exists o. auto. }
  assert (E2 : a_b (recordTimeout P C seg s1) = a_b s1 /\ a_hasFailure (recordTimeout P C seg s1) = a_hasFailure s1 /\
               a_timer (recordTimeout P C seg s1) = a_timer s1).
  { unfold recordTimeout. destruct (_ || _); auto. }
  destruct E2 as (E2 & E3 & E4).
  apply prog_schedule; [exact HL2| | |]; rewrite ?E2, ?E3, ?E4, ?Eb, ?Ef; [exact Hs|congruence|exact Hall].
Qed.

Lemma flk_relive seg i s k :
  kget seg (a_segs s) = Some i ->
  flk k (kset seg (SegInfo false (si_timeSent i) (si_rto i) (si_state i)) (a_segs s)) = flk k (a_segs s).
Proof.
  intros E. rewrite flk_kset. destruct (N.eqb_spec k seg) as [->|]; [|reflexivity]. unfold flk. now rewrite E.
Qed.

Lemma prog_fromFace seg (h : st -> st) s :
  a_crashed s = false -> Live C s -> Prog s ->
  (forall s', fromFace seg h s = h s' -> a_crashed s' = false -> stopping s' = false -> kmem seg (a_segs s') = true -> Live C s' ->
              Prog s' -> 1 <= p_floor P (a_cwnd (h s')) -> Prog (h s')) ->
  1 <= p_floor P (a_cwnd (fromFace seg h s)) -> Prog (fromFace seg h s).
Proof.
  intros Hc HL HP Hk. unfold fromFace in *.
  destruct (kget seg (a_segs s)) as [i|] eqn:Ei; [|auto].
  destruct (si_live i); [|auto].
  assert (Hs : stopping s = false).
  { destruct (stopping s) eqn:E; [|reflexivity]. destruct HL as [HA _].
    rewrite (A_stop _ _ HA E) in Ei. discriminate. }
  apply Hk; cbn; auto.
  - rewrite kmem_kset, N.eqb_refl. reflexivity.
  - eapply live_kset_info; eauto. cbn. intros Hq. destruct HL as [_ HR]. eapply (R_q _ _ (HR Hs)); eauto.
  - intros _ _. cbn. destruct (HP Hc Hs) as [H1 H2]. split; [exact H1|]. intros Hf.
    destruct (H2 Hf) as [H3 (k & H4)]. split; [exact H3|]. exists k. cbn. now rewrite flk_relive.
Qed.

Lemma checkRto_fold_has l : forall s has (high : N),
  has = true -> snd (fst (fold_left checkRto1 l (s, has, high))) = true.
Proof.
  induction l as [|k l IH]; intros s has high H; cbn [fold_left]; [exact H|].
  destruct (checkRto1 (s, has, high) k) as [[s1 has1] high1] eqn:E. apply IH.
  unfold checkRto1 in E. destruct (kget k (a_segs s)); [destruct (_ && _)|]; congruence.
Qed.
Lemma checkRto_fold_none l : forall s (high : N),
  snd (fst (fold_left checkRto1 l (s, false, high))) = false -> fst (fst (fold_left checkRto1 l (s, false, high))) = s.
Proof.
  induction l as [|k l IH]; intros s high H; cbn [fold_left] in *; [reflexivity|].
  destruct (checkRto1 (s, false, high) k) as [[s1 has1] high1] eqn:E.
  destruct has1.
  - rewrite checkRto_fold_has in H by reflexivity. discriminate.
  - rewrite IH by exact H. unfold checkRto1 in E. destruct (kget k (a_segs s)); [destruct (_ && _)|]; congruence.
Qed.

Lemma checkRto_fold_b l : forall acc : st * bool * N,
  a_b (fst (fst (fold_left checkRto1 l acc))) = a_b (fst (fst acc)) /\
  a_hasFailure (fst (fst (fold_left checkRto1 l acc))) = a_hasFailure (fst (fst acc)).
Proof.
  induction l as [|k l IH]; intros [[s has] high]; cbn [fold_left]; [auto|].
  destruct (IH (checkRto1 (s, has, high) k)) as [H1 H2]. rewrite H1, H2. clear.
  unfold checkRto1. destruct (kget k (a_segs s)) eqn:E; [|auto]. destruct (_ && _); [|auto]. cbn [fst].
  unfold enqueueForRetransmission. cbn [emit set_tr set_nTimeouts a_nInFlight].
  destruct (0 <? a_nInFlight s); cbn; rewrite E; auto.
Qed.

Lemma prog_checkRto order s :
  Live C s -> a_crashed s = false -> Prog (set_timer true s) ->
  1 <= p_floor P (a_cwnd (checkRto P C order s)) -> Prog (checkRto P C order s).
Proof.
  intros HL Hc HP. unfold checkRto, isStopping. destruct (stopping s) eqn:Hs; [intros _ _ H; congruence|].
  destruct (HP Hc Hs) as [_ HB]. cbn [set_timer a_hasFailure a_b a_segs] in HB.
  set (l := visit_order order (keys (a_segs s))).
  pose proof (live_checkRto_fold C l s false 0%N HL (or_intror (conj eq_refl eq_refl)) Hs) as H.
  pose proof (checkRto_fold_none l s 0%N) as Hnone.
  pose proof (checkRto_fold_b l (s, false, 0%N)) as Hb.
  destruct (fold_left checkRto1 l _) as [[s1 has1] high1]. cbn [fst snd] in Hnone, Hb.
  destruct H as (HL1 & Hh1 & HK1). destruct Hb as [Eb Ef].
  destruct (a_crashed s1) eqn:Ec; [intros _ H; congruence|]. cbn [set_timer a_cwnd].
  destruct has1.
  - destruct Hh1 as [[H1 H2]|[H _]]; [|discriminate].
    pose proof (live_recordTimeout C P high1 s1 H1 H2 HL1) as HL2.
    assert (E2 : a_b (recordTimeout P C high1 s1) = a_b s1 /\ a_hasFailure (recordTimeout P C high1 s1) = a_hasFailure s1).
    { unfold recordTimeout. destruct (_ || _); auto. }
    destruct E2 as [E2 E3]. set (s2 := recordTimeout P C high1 s1) in *. clearbody s2.
    intros Hw _ Hs'. split; [reflexivity|]. cbn. cbn in Hs'. intros Hf.
    assert (Hf0 : a_hasFailure s2 = false).
    { destruct (mf_schedule s2) as [_ F]. destruct (a_hasFailure s2); [rewrite F in Hf by reflexivity; discriminate|reflexivity]. }
    assert (Hs2 : stopping s2 = false) by congruence.
    destruct (sw_schedule P C s2) as [E _]. rewrite E in Hw.
    assert (Ha : allrec s2 = false).
    { rewrite E2, Eb. apply HB. congruence. }
    destruct (schedule_good s2 HL2 Hs2 Ha Hw) as [H|[H|H]]; [congruence|congruence|exact H].
  - rewrite (Hnone eq_refl). intros _. exact HP.
Qed.

Lemma prog_step n s e :
  Inv C s -> Prog s -> 1 <= p_floor P (a_cwnd (a_step P C s e)) ->
  (forall k d, In (OGotData k d) (a_tr (a_step P C s e)) -> (k <= n)%N /\ (d_fbi d = FbiAbsent \/ d_fbi d = FbiSegment n)) ->
  Prog (a_step P C s e).
Proof.
  intros HI HP. unfold a_step. destruct (a_crashed s) eqn:Hc; [intros _ _ H; congruence|].
  pose proof (inv_live _ _ Hc HI) as HL.
  destruct e as [seg d|seg rr|seg|order|dt|].
  - intros Hw Hh. apply prog_fromFace; auto. intros s' Et Hc' Hs' Hm HL' HP' Hw'.
    destruct (HP' Hc' Hs') as [Ht' _]. apply prog_handleData; auto. rewrite Et in Hh.
    destruct (mono_handleData seg d (emit (OGotData seg d) s')) as [HM _].
    destruct (Hh seg d) as [H1 H2]; [apply (ext_in _ _ _ HM); now left|]. intros m Em. destruct H2; congruence.
  - intros Hw _. apply prog_fromFace; auto. intros s' Et Hc' Hs' Hm HL' HP' Hw'. destruct (HP' Hc' Hs') as [Ht' HB'].
    revert Hw'. unfold handleNack, isStopping. cbn [emit set_tr a_b]. rewrite Hs'.
    assert (HF : Prog (handleFail seg (RNack seg rr) (emit (OGotNack seg rr) s'))).
    { apply prog_good.
      - destruct (mf_handleFail seg (RNack seg rr) (emit (OGotNack seg rr) s')) as [(_ & _ & T & _) _]. cbn [emit set_tr a_timer] in T.
        destruct T; congruence.
      - destruct (handleFail_ends seg (RNack seg rr) (emit (OGotNack seg rr) s')) as [H|H]; [exact Hs'| |left; exact H|right; left; exact H].
        cbn. intros Hf. destruct HL' as [_ HR']. apply (R_last _ _ (HR' Hs') seg Hf Hm). }
    assert (Hlt : (seg < nf (a_tr s'))%N) by (destruct HL' as [_ HR]; apply (R_keys _ _ (HR Hs')); auto).
    destruct rr; try (intros _; exact HF).
    + apply prog_lost; [exact Hs'|exact Hm|eapply live_lost; eauto| |eapply live_lost; eauto|exact Ht'|intros Hf; apply HB'; exact Hf].
      eexists. split; [now left|]. apply N.eqb_refl.
    + intros _ _ _. cbn. exact (HP' Hc' Hs').
  - intros Hw _. apply prog_fromFace; auto. intros s' Et Hc' Hs' Hm HL' HP' Hw'. destruct (HP' Hc' Hs') as [Ht' HB'].
    revert Hw'. unfold handleLifetimeExpiration, isStopping. cbn [emit set_tr a_b]. rewrite Hs'.
    assert (Hlt : (seg < nf (a_tr s'))%N) by (destruct HL' as [_ HR]; apply (R_keys _ _ (HR Hs')); auto).
    destruct (live_timeout C (OGotExpiry seg) s' Hlt HL') as [HL1 Hsl1].
    apply prog_lost; [exact Hs'|exact Hm|exact Hsl1| |exact HL1|exact Ht'|intros Hf; apply HB'; exact Hf].
    eexists. split; [now left|]. apply N.eqb_refl.
  - destruct (a_timer s) eqn:Et; [|intros _ _; exact HP]. intros Hw _. apply prog_checkRto; auto.
    + now apply live_set_timer.
    + intros H1 H2. cbn. cbn in H2. destruct (HP Hc H2) as [_ H3]. split; [reflexivity|exact H3].
  - intros _ _ H1 H2. cbn in *. exact (HP Hc H2).
  - intros _ _ _. unfold cancel, isStopping. cbn. destruct (stopping s) eqn:Es; cbn; congruence.
Qed.

Definition wk s s' : Prop :=
  ext (a_tr s) (a_tr s') /\ (a_crashed s' = true -> a_crashed s = true \/ In OThrow (a_tr s')).
Lemma wk_mono s s' : mono s s' -> wk s s'.
Proof. intros (H1 & _ & _ & H2). split; auto. Qed.
Lemma wk_trans a b c : wk a b -> wk b c -> wk a c.
Proof.
  intros [H1 H2] [H3 H4]. split; [eapply ext_tran; eauto|]. intros H. destruct (H4 H) as [H'|H']; [|auto].
  destruct (H2 H'); eauto using ext_in.
Qed.
Lemma wk_emit o s : wk s (emit o s).
Proof. split; [apply ext_tl|auto]. Qed.
Lemma wk_refl s : wk s s.
Proof. split; [apply ext_refl|auto]. Qed.
Lemma wk_fromFace seg (h : st -> st) s : (forall s', wk s' (h s')) -> wk s (fromFace seg h s).
Proof.
  intros H. unfold fromFace. destruct (kget seg (a_segs s)) as [i|]; [|apply wk_refl].
  destruct (si_live i); [|apply wk_refl].
  match goal with |- wk _ (h ?x) => exact (H x) end.
Qed.
Lemma wk_lost seg s : wk s (let s1 := enqueueForRetransmission seg s in
             if a_crashed s1 then s1 else schedulePackets P C (recordTimeout P C seg s1)).
Proof.
  cbv zeta. destruct (a_crashed _); [apply wk_mono, mf_enqueue|].
  eapply wk_trans; [apply wk_mono, mf_enqueue|]. eapply wk_trans; [apply wk_mono, mf_recordTimeout|]. apply wk_mono, mf_schedule.
Qed.
Lemma wk_step s e : wk s (a_step P C s e).
Proof.
  unfold a_step. destruct (a_crashed s) eqn:Ec; [apply wk_refl|]. destruct e as [seg d|seg rr|seg|order|dt|].
  - apply wk_fromFace. intros s'. eapply wk_trans; [|apply wk_mono, mono_handleData]. apply wk_emit.
  - apply wk_fromFace. intros s'. eapply wk_trans; [apply (wk_emit (OGotNack seg rr))|].
    unfold handleNack. destruct (isStopping _); [apply wk_refl|].
    destruct rr; try apply wk_mono, mf_handleFail; [apply wk_lost|apply wk_refl].
  - apply wk_fromFace. intros s'. eapply wk_trans; [apply (wk_emit (OGotExpiry seg))|].
    unfold handleLifetimeExpiration. destruct (isStopping _); [apply wk_refl|].
    match goal with |- context [enqueueForRetransmission seg ?x] => exact (wk_lost seg x) end.
  - destruct (a_timer s); [|apply wk_refl]. unfold checkRto. destruct (isStopping _); [split; [apply ext_refl|auto]|].
    cbn [set_timer a_segs].
    pose proof (mf_checkRto_fold (visit_order order (keys (a_segs s))) (set_timer false s, false, 0%N)) as [H _].
    apply wk_mono in H.
    destruct (fold_left _ _ _) as [[s1 has] high]. cbn [fst] in H. change (wk s s1) in H.
    destruct (a_crashed s1); [exact H|].
    destruct has; [|exact H]. eapply wk_trans; [exact H|]. eapply wk_trans; [apply wk_mono, (mf_recordTimeout high)|].
    match goal with |- wk ?x _ => exact (wk_mono _ _ (proj1 (mf_schedule x))) end.
  - split; [apply ext_refl|cbn; auto].
  - eapply wk_trans; [apply (wk_emit OGotCancel)|]. apply wk_mono, mf_cancel.
Qed.

Lemma crash_thrown es : a_crashed (a_run P C es) = true -> In OThrow (a_tr (a_run P C es)).
Proof.
  induction es as [|e es IH] using rev_ind.
  - unfold a_run. cbn [fold_left]. unfold doRun. change (b_allReceived (a_b (a_init P))) with false. cbn match.
    intros H. destruct (mf_schedule (set_timer true (a_init P))) as [(_ & _ & _ & K) _].
    destruct (K H); [discriminate|assumption].
  - unfold a_run. rewrite fold_left_app. cbn [fold_left]. fold (a_run P C es). intros H.
    destruct (wk_step (a_run P C es) e) as [K1 K2]. destruct (K2 H) as [H'|H']; [apply (ext_in _ _ _ K1); auto|exact H'].
Qed.

Lemma win_run_floor l w : win_run P l w -> p_floor P w = p_floor P (p_initW P) \/ In (p_floor P w) l.
Proof. intros []; [left; reflexivity|right; now left|right; now left]. Qed.

Lemma window_pos es :
  1 <= p_floor P (p_initW P) -> (forall w, In (OWindow w) (a_tr (a_run P C es)) -> 1 <= w) ->
  1 <= p_floor P (a_cwnd (a_run P C es)).
Proof.
  intros H0 Hw. destruct (win_run_floor _ _ (wi_run P C es)) as [-> |H]; [exact H0|].
  apply Hw. unfold wins in H. apply in_flat_map in H. destruct H as (o & H1 & H2).
  destruct o; cbn in H2; try contradiction. destruct H2 as [->|[]]. exact H1.
Qed.

Lemma prog_run n es :
  1 <= p_floor P (p_initW P) -> (forall w, In (OWindow w) (a_tr (a_run P C es)) -> 1 <= w) ->
  (forall k d, In (OGotData k d) (a_tr (a_run P C es)) -> (k <= n)%N /\ (d_fbi d = FbiAbsent \/ d_fbi d = FbiSegment n)) ->
  Prog (a_run P C es).
Proof.
  intros H0. induction es as [|e es IH] using rev_ind.
  - intros Hw _. apply (window_pos []) in Hw; [|exact H0]. revert Hw. unfold a_run. cbn [fold_left].
    unfold doRun. change (b_allReceived (a_b (a_init P))) with false. cbn match.
    apply prog_schedule; [apply live_set_timer, live_init|reflexivity|reflexivity|reflexivity].
  - intros Hw Hh. pose proof (window_pos _ H0 Hw) as Hp. revert Hw Hh Hp.
    unfold a_run. rewrite fold_left_app. cbn [fold_left]. fold (a_run P C es).
    intros Hw Hh Hp. apply (prog_step n); auto; [apply inv_run|].
    destruct (wk_step (a_run P C es) e) as [HX _].
    apply IH; intros; [apply Hw|apply Hh]; now apply (ext_in _ _ _ HX).
Qed.
End Progress.
