(** A transfer whose losses stay within the retry budget ends with completion: bounds on the
    Interests, and why something always happens. *)
From Verif Require Import Base BaseFacts PipelineBase PipelineSpec ProgressSpec FetcherModel AdaptiveModel AdaptiveProofs.
From Verif Require Import AdaptiveInv AdaptiveInv2 AdaptiveFlight AdaptiveWindow AdaptiveTheorems AdaptiveProgress AdaptiveLive.

Local Arguments Z.of_nat : simpl never.

Definition is_got (o : pobs) : bool := match o with OGotData _ _ | OGotNack _ _ | OGotExpiry _ => true | _ => false end.

Section Ends.
Variable C : aconfig.
Context {W R : Type}.
Variable P : policy W R.
Notation st := (@astate W R).
Implicit Types s : st.
Notation r := (c_maxRetries C).
Notation hasFbi s := (b_hasFbi (a_b s)).
Notation last s := (b_last (a_b s)).
Notation stopping s := (b_stopping (a_b s)).
Notation w0 := (p_floor P (p_initW P)).

(** * Answers do not outnumber Interests *)
Definition lives (m : list (N * seginfo)) : Z := count (fun e => si_live (snd e)) m.
Definition b2z (b : bool) : Z := if b then 1 else 0.
Lemma lives_kset k i m : lives (kset k i m) <= lives m + b2z (si_live i).
Proof.
  unfold lives. induction m as [|[k' j] m IH]; cbn [kset].
  - rewrite count_cons, count_nil. unfold b2z. cbn. destruct (si_live i); lia.
  - destruct (N.eqb k k'); rewrite !count_cons; cbn [snd]; unfold b2z in *; destruct (si_live i), (si_live j); lia.
Qed.
Lemma lives_kset_old k i j m : kget k m = Some j -> lives (kset k i m) = lives m + b2z (si_live i) - b2z (si_live j).
Proof.
  unfold lives. induction m as [|[k' j'] m IH]; cbn [kset kget]; [discriminate|].
  destruct (N.eqb k k').
  - intros [= ->]. rewrite !count_cons. cbn [snd]. unfold b2z. destruct (si_live i), (si_live j); lia.
  - intros H. rewrite !count_cons, (IH H). lia.
Qed.
Lemma lives_filter p m : lives (filter p m) <= lives m.
Proof.
  unfold lives. induction m as [|e m IH]; cbn [filter]; [lia|]. destruct (p e); rewrite ?count_cons; [lia|].
  destruct (si_live (snd e)); lia.
Qed.
Lemma lives_nonneg m : 0 <= lives m.
Proof. apply count_nonneg. Qed.

Definition phi s : Z := count is_got (a_tr s) + lives (a_segs s) - count is_int (a_tr s).
Definition gl s s' : Prop := phi s' <= phi s.
Lemma gl_refl s : gl s s. Proof. unfold gl. lia. Qed.
Lemma gl_trans a b c : gl a b -> gl b c -> gl a c. Proof. unfold gl. lia. Qed.
Lemma gl_same s s' : a_tr s' = a_tr s -> a_segs s' = a_segs s -> gl s s'.
Proof. unfold gl, phi. intros -> ->. lia. Qed.
Lemma gl_emit o s s' : a_tr s' = o :: a_tr s -> a_segs s' = a_segs s -> is_got o = false -> gl s s'.
Proof. unfold gl, phi. intros -> -> H. rewrite !count_cons, H. destruct (is_int o); lia. Qed.

Lemma gl_cancel s : gl s (cancel s).
Proof.
  unfold cancel. destruct (isStopping s); [apply gl_refl|]. unfold gl, phi, doCancel. cbn.
  pose proof (lives_nonneg (a_segs s)). unfold lives at 1. rewrite count_nil. lia.
Qed.
Lemma gl_onFailure rs s : gl s (onFailure rs s).
Proof.
  unfold onFailure. destruct (isStopping s); [apply gl_refl|]. eapply gl_trans; [apply gl_cancel|].
  eapply gl_emit; reflexivity.
Qed.
Lemma gl_cancelGreater n s : gl s (cancelGreater n s).
Proof.
  unfold gl, phi, cancelGreater. cbn. rewrite !count_app.
  assert (E : forall p l, (forall k, p (OAbandon k) = false) -> count p (map (fun e : N * seginfo => OAbandon (fst e)) l) = 0).
  { intros p l Hp. apply count_zero. intros x Hx. apply in_map_iff in Hx. destruct Hx as (y & <- & _). apply Hp. }
  rewrite !E by reflexivity. pose proof (lives_filter (fun e => negb (n <? fst e)%N) (a_segs s)). lia.
Qed.
Lemma gl_handleFail seg rs s : gl s (handleFail seg rs s).
Proof.
  unfold handleFail. destruct (isStopping s); [apply gl_refl|]. destruct (b_hasFbi (a_b s) && _); [apply gl_onFailure|].
  destruct (negb _); [|apply gl_refl]. cbv zeta.
  set (s1 := set_nInFlight _ _).
  assert (H : gl s s1).
  { unfold gl, phi, s1. cbn. rewrite !count_cons. cbn. pose proof (lives_filter (fun e => negb (seg =? fst e)%N) (a_segs s)). unfold kdel. lia. }
  clearbody s1. destruct (a_segs s1) eqn:E.
  - eapply gl_trans; [exact H|apply gl_onFailure].
  - eapply gl_trans; [exact H|]. eapply gl_trans; [apply (gl_cancelGreater seg)|]. apply gl_same; reflexivity.
Qed.
Lemma gl_express seg retx s : gl s (express P seg retx s).
Proof.
  unfold gl, phi, express. set (i := SegInfo true _ _ _). pose proof (lives_kset seg i (a_segs s)) as H.
  unfold b2z in H. cbn [si_live i] in H.
  destruct retx; cbn; rewrite !count_cons; cbn; fold i; lia.
Qed.
Lemma gl_sendInterest seg retx s : gl s (sendInterest P C seg retx s).
Proof.
  unfold sendInterest. destruct (isStopping s); [apply gl_refl|]. destruct (_ && _); [apply gl_refl|].
  destruct (_ && _); [apply gl_refl|]. destruct retx; [|apply gl_express].
  destruct (kget seg (a_retxCount s)); cbv zeta; [destruct (_ && _)|].
  - eapply gl_trans; [|apply gl_handleFail]. apply gl_same; reflexivity.
  - eapply gl_trans; [|apply gl_express]. apply gl_same; reflexivity.
  - eapply gl_trans; [|apply gl_express]. apply gl_same; reflexivity.
Qed.
Lemma gl_dropSkipped q : forall s, gl s (dropSkipped q s).
Proof.
  induction q as [|k q IH]; intros s; cbn [dropSkipped]; [apply gl_same; reflexivity|].
  destruct (kmem k (a_segs s)); [apply gl_same; reflexivity|].
  eapply gl_trans; [|apply IH]. eapply gl_emit; reflexivity.
Qed.
Lemma gl_sendOne s : gl s (sendOne P C s).
Proof.
  unfold sendOne. cbv zeta. pose proof (gl_dropSkipped (a_retxq s) s) as H. set (s1 := dropSkipped _ s) in *.
  destruct (a_retxq s1); [destruct (b_getNext (a_b s1)) as [k b] eqn:E|].
  all: eapply gl_trans; [exact H|]; eapply gl_trans; [|apply gl_sendInterest]; apply gl_same; reflexivity.
Qed.
Lemma gl_iter n : forall s, gl s (iter n (sendOne P C) s).
Proof. induction n as [|n IH]; intros s; cbn [iter]; [apply gl_refl|]. eapply gl_trans; [apply gl_sendOne|apply IH]. Qed.
Lemma gl_schedule s : gl s (schedulePackets P C s).
Proof.
  unfold schedulePackets. cbv zeta. eapply gl_trans; [|apply gl_iter].
  destruct (_ <? _); [eapply gl_emit; reflexivity|apply gl_refl].
Qed.
Lemma gl_recordTimeout seg s : gl s (recordTimeout P C seg s).
Proof.
  unfold recordTimeout. destruct (_ || _); [|apply gl_refl].
  unfold gl, phi. cbn. rewrite !count_cons. cbn. lia.
Qed.
Lemma gl_enqueue seg s : gl s (enqueueForRetransmission seg s).
Proof.
  unfold enqueueForRetransmission.
  set (s1 := if 0 <? a_nInFlight s then s else emit OAssert s).
  assert (H : gl s s1) by (unfold s1; destruct (_ <? _); [apply gl_refl|eapply gl_emit; reflexivity]).
  clearbody s1. eapply gl_trans; [exact H|]. cbn [set_retxq set_nInFlight a_segs].
  destruct (kget seg (a_segs s1)) as [i|] eqn:E.
  - unfold gl, phi. cbn. rewrite (lives_kset_old _ _ _ _ E). cbn. lia.
  - eapply gl_emit; reflexivity.
Qed.
Lemma gl_checkRto1 s has high seg : gl s (fst (fst (checkRto1 (s, has, high) seg))).
Proof.
  unfold checkRto1. destruct (kget seg (a_segs s)); [|apply gl_refl]. destruct (_ && _); [|apply gl_refl].
  cbv zeta. cbn [fst]. eapply gl_trans; [|apply gl_enqueue]. eapply gl_emit; reflexivity.
Qed.
Lemma gl_checkRto_fold l : forall acc, gl (fst (fst acc)) (fst (fst (fold_left checkRto1 l acc))).
Proof.
  induction l as [|k l IH]; intros [[s has] high]; cbn [fold_left]; [apply gl_refl|].
  eapply gl_trans; [apply gl_checkRto1|apply IH].
Qed.
Lemma gl_checkRto order s : gl s (checkRto P C order s).
Proof.
  unfold checkRto. destruct (isStopping s); [apply gl_refl|].
  pose proof (gl_checkRto_fold (visit_order order (keys (a_segs s))) (s, false, 0%N)) as H.
  destruct (fold_left _ _ _) as [[s1 has] high]. cbn [fst] in H. destruct (a_crashed s1); [exact H|].
  destruct has; [|eapply gl_trans; [exact H|apply gl_same; reflexivity]].
  eapply gl_trans; [exact H|]. eapply gl_trans; [apply (gl_recordTimeout high)|].
  eapply gl_trans; [apply gl_schedule|apply gl_same; reflexivity].
Qed.
Lemma gl_learnFbi d s : gl s (fst (learnFbi d s)).
Proof.
  unfold learnFbi. destruct (hasFbi s); [apply gl_refl|]. destruct (d_fbi d) as [|n|]; [apply gl_refl| |].
  - assert (H : gl s (cancelGreater n (set_b (b_setFbi n (a_b s)) s))).
    { eapply gl_trans; [|apply gl_cancelGreater]. apply gl_same; reflexivity. }
    cbv zeta. set (s1 := cancelGreater n _) in *. clearbody s1. destruct (_ && _); cbn [fst].
    + eapply gl_trans; [exact H|apply gl_onFailure].
    + eapply gl_trans; [exact H|]. apply gl_same; reflexivity.
  - cbn [fst]. eapply gl_emit; reflexivity.
Qed.
Lemma gl_adapt seg d s : gl s (adaptWindow P C seg d s).
Proof.
  unfold adaptWindow. destruct (d_mark d); cbv zeta; [|eapply gl_emit; reflexivity].
  destruct (negb _); [destruct (_ || _)|].
  - unfold gl, phi. cbn. rewrite !count_cons. cbn. lia.
  - apply gl_same; reflexivity.
  - eapply gl_emit; reflexivity.
Qed.
Lemma gl_sample seg i rtt s : gl s (sampleRtt P seg i rtt s).
Proof. unfold sampleRtt. destruct (_ && _); [eapply gl_emit; reflexivity|apply gl_refl]. Qed.
Lemma gl_taken seg d i s : gl s (taken C P seg d i s).
Proof.
  unfold taken. match goal with |- context [adaptWindow P C seg d ?x] => apply (gl_trans _ x) end.
  { destruct (state_eqb _ _); apply gl_same; reflexivity. }
  eapply gl_trans; [apply (gl_adapt seg d)|]. set (s1 := adaptWindow _ _ _ _ _). clearbody s1.
  unfold onData. destruct (c_cbThrows C d).
  - unfold gl, phi. cbn. rewrite !count_cons. cbn. lia.
  - eapply gl_emit; reflexivity.
Qed.
Lemma gl_handleData seg d s : gl s (handleData P C seg d s).
Proof.
  rewrite handleData_unfold. destruct (stopping s); [apply gl_refl|].
  pose proof (gl_learnFbi d s) as H. destruct (learnFbi d s) as [s1 cont]. cbn [fst] in H.
  destruct (negb cont); [exact H|]. destruct (kget seg (a_segs s1)) as [i|]; [|exact H].
  cbv zeta.
  assert (H1 : gl s (taken C P seg d i s1)) by (eapply gl_trans; [exact H|apply gl_taken]).
  set (s2 := taken C P seg d i s1) in *. clearbody s2. destruct (a_crashed s2); [exact H1|].
  set (s3 := sampleRtt P seg i (a_now s1 - si_timeSent i) s2).
  assert (H2 : gl s (set_segs (kdel seg (a_segs s3)) s3)).
  { eapply gl_trans; [exact H1|]. eapply gl_trans; [apply (gl_sample seg i (a_now s1 - si_timeSent i))|]. fold s3.
    unfold gl, phi. cbn. pose proof (lives_filter (fun e => negb (seg =? fst e)%N) (a_segs s3)). unfold kdel. lia. }
  set (s4 := set_segs _ s3) in *. clearbody s4. destruct (b_allReceived _).
  - eapply gl_trans; [exact H2|]. eapply gl_trans; [apply gl_cancel|]. eapply gl_emit; reflexivity.
  - eapply gl_trans; [exact H2|apply gl_schedule].
Qed.
Lemma gl_lost seg s : gl s (let s1 := enqueueForRetransmission seg s in
             if a_crashed s1 then s1 else schedulePackets P C (recordTimeout P C seg s1)).
Proof.
  cbv zeta. destruct (a_crashed _); [apply gl_enqueue|].
  eapply gl_trans; [apply gl_enqueue|]. eapply gl_trans; [apply gl_recordTimeout|]. apply gl_schedule.
Qed.
Lemma gl_fromFace seg o (h : st -> st) s : is_got o = true -> is_int o = false ->
  (forall s', gl (emit o s') (h s')) -> gl s (fromFace seg h s).
Proof.
  intros Ho Hi H. unfold fromFace. destruct (kget seg (a_segs s)) as [i|] eqn:E; [|apply gl_refl].
  destruct (si_live i) eqn:El; [|apply gl_refl].
  eapply gl_trans; [|apply H]. unfold gl, phi. cbn. rewrite !count_cons, Ho, Hi.
  rewrite (lives_kset_old _ _ _ _ E). cbn. rewrite El. unfold b2z. lia.
Qed.
Lemma gl_step s e : gl s (a_step P C s e).
Proof.
  unfold a_step. destruct (a_crashed s) eqn:Ec; [apply gl_refl|]. destruct e as [seg d|seg rr|seg|order|dt|].
  - apply (gl_fromFace seg (OGotData seg d)); [reflexivity|reflexivity|]. intros s'. apply gl_handleData.
  - apply (gl_fromFace seg (OGotNack seg rr)); [reflexivity|reflexivity|]. intros s'.
    unfold handleNack. destruct (isStopping _); [apply gl_refl|].
    destruct rr; try apply gl_handleFail; [apply gl_lost|apply gl_refl].
  - apply (gl_fromFace seg (OGotExpiry seg)); [reflexivity|reflexivity|]. intros s'.
    unfold handleLifetimeExpiration. destruct (isStopping _); [apply gl_refl|].
    match goal with |- context [enqueueForRetransmission seg ?x] => eapply gl_trans; [|exact (gl_lost seg x)] end.
    apply gl_same; reflexivity.
  - destruct (a_timer s); [|apply gl_refl]. eapply gl_trans; [|apply gl_checkRto]. apply gl_same; reflexivity.
  - apply gl_same; reflexivity.
  - eapply gl_trans; [|apply gl_cancel]. eapply gl_emit; reflexivity.
Qed.
Lemma got_bound es : count is_got (a_tr (a_run P C es)) <= count is_int (a_tr (a_run P C es)).
Proof.
  assert (H : phi (a_run P C es) <= 0).
  { induction es as [|e es IH] using rev_ind.
    - unfold a_run. cbn [fold_left]. unfold doRun. change (b_allReceived (a_b (a_init P))) with false. cbn match.
      eapply Z.le_trans; [apply gl_schedule|]. unfold phi, lives, count. cbn. lia.
    - unfold a_run. rewrite fold_left_app. cbn [fold_left]. fold (a_run P C es).
      eapply Z.le_trans; [apply gl_step|exact IH]. }
  unfold phi in H. pose proof (lives_nonneg (a_segs (a_run P C es))). lia.
Qed.

(** * Retransmissions and failures are paid for by losses *)
Definition losses (k : N) (t : list pobs) : Z := count (lost k) t.
Definition rc (k : N) s : Z := match kget k (a_retxCount s) with Some m => m | None => 0 end.
Definition occ (k : N) s : Z := count (N.eqb k) (a_retxq s).
Definition spent (t : list pobs) : Prop :=
  exists seg, (exists rr, refused t seg rr) \/ (r <> -1 /\ Z.max 1 r < losses seg t).
Definition failed s : Prop := a_hasFailure s = true \/ exists rs, In (OFail rs) (a_tr s).

Record Paid s : Prop := {
  P_pay  : forall k, rc k s + occ k s <= losses k (a_tr s);
  P_rc   : forall k m, kget k (a_retxCount s) = Some m -> 1 <= m;
  P_fail : failed s -> spent (a_tr s)
}.

Lemma losses_cons k o t : losses k (o :: t) = b2z (lost k o) + losses k t.
Proof. unfold losses. rewrite count_cons. reflexivity. Qed.
Lemma spent_cons o t : spent t -> spent (o :: t).
Proof.
  intros (seg & H). exists seg. destruct H as [(rr & H1 & H2 & H3)|[H1 H2]].
  - left. exists rr. repeat split; auto. now right.
  - right. split; [exact H1|]. rewrite losses_cons. unfold b2z. destruct (lost seg o); lia.
Qed.
Lemma spent_app l t : spent t -> spent (l ++ t).
Proof. intros H. induction l as [|o l IH]; cbn [app]; [exact H|now apply spent_cons]. Qed.
Definition nofail (o : pobs) : bool := match o with OFail _ => false | _ => true end.

Lemma paid_same s s' : a_tr s' = a_tr s -> a_retxq s' = a_retxq s -> a_retxCount s' = a_retxCount s ->
  a_hasFailure s' = a_hasFailure s -> Paid s -> Paid s'.
Proof.
  intros E1 E2 E3 E4 [H1 H2 H3]. constructor.
  - intros k. unfold rc, occ. rewrite E1, E2, E3. apply H1.
  - rewrite E3. exact H2.
  - unfold failed. rewrite E1, E4. exact H3.
Qed.
Lemma paid_emit o s s' : a_tr s' = o :: a_tr s -> a_retxq s' = a_retxq s -> a_retxCount s' = a_retxCount s ->
  a_hasFailure s' = a_hasFailure s -> nofail o = true -> Paid s -> Paid s'.
Proof.
  intros E1 E2 E3 E4 E5 [H1 H2 H3]. constructor.
  - intros k. unfold rc, occ. rewrite E1, E2, E3, losses_cons. specialize (H1 k). unfold rc, occ in H1. unfold b2z. destruct (lost k o); lia.
  - rewrite E3. exact H2.
  - unfold failed. rewrite E1, E4. intros [H|(rs & [->|H])]; [|discriminate|]; apply spent_cons, H3; [now left|right; eauto].
Qed.

Lemma paid_cancel s : Paid s -> Paid (cancel s).
Proof. unfold cancel. destruct (isStopping s); [auto|]. apply paid_same; reflexivity. Qed.
Lemma paid_onFailure rs s : spent (a_tr s) -> Paid s -> Paid (onFailure rs s).
Proof.
  intros Hsp. unfold onFailure. destruct (isStopping s); [auto|]. intros H. apply paid_cancel in H.
  assert (E : a_tr (cancel s) = a_tr s) by (unfold cancel; destruct (isStopping s); reflexivity).
  destruct H as [H1 H2 H3]. constructor.
  - intros k. cbn. rewrite losses_cons. specialize (H1 k). cbn. unfold rc, occ in *. cbn. lia.
  - exact H2.
  - intros _. cbn. apply spent_cons. now rewrite E.
Qed.
Lemma paid_cancelGreater n s : Paid s -> Paid (cancelGreater n s).
Proof.
  intros [H1 H2 H3]. destruct (cancelGreater_tr n s) as (l & Hl & E).
  constructor.
  - intros k. rewrite E. unfold losses. rewrite count_app. pose proof (count_nonneg (lost k) l). specialize (H1 k). unfold losses in H1. unfold rc, occ in *. cbn. lia.
  - exact H2.
  - unfold failed. rewrite E. cbn. intros [H|(rs & H)]; apply spent_app, H3; [now left|]. right. exists rs.
    apply in_app_or in H. destruct H as [H|H]; [|exact H]. exfalso. unfold cancelGreater in E. cbn in E. apply app_inv_tail in E. subst l.
    apply in_map_iff in H. destruct H as (x & H & _). discriminate.
Qed.
Lemma paid_handleFail seg rs s : spent (a_tr s) -> Paid s -> Paid (handleFail seg rs s).
Proof.
  intros Hsp HP. unfold handleFail. destruct (isStopping s); [exact HP|]. destruct (b_hasFbi (a_b s) && _); [now apply paid_onFailure|].
  destruct (negb _); [|exact HP]. cbv zeta. set (s1 := set_nInFlight _ _).
  assert (H : Paid s1) by (revert HP; apply (paid_emit (OAbandon seg)); reflexivity).
  assert (Hs1 : spent (a_tr s1)) by (apply spent_cons, Hsp).
  clearbody s1. destruct (a_segs s1) eqn:E.
  - now apply paid_onFailure.
  - apply (paid_cancelGreater seg) in H. destruct H as [H1 H2 H3].
    constructor; [exact H1|exact H2|]. intros _. cbn. apply spent_app, Hs1.
Qed.
Lemma paid_express seg retx s : Paid s -> Paid (express P seg retx s).
Proof. unfold express. destruct retx; [apply (paid_emit (OInterest seg true))|apply (paid_emit (OInterest seg false))]; reflexivity. Qed.

Lemma paid_dropSkipped q : forall s, Paid (set_retxq q s) -> Paid (dropSkipped q s).
Proof.
  induction q as [|k q IH]; intros s H; cbn [dropSkipped]; [exact H|].
  destruct (kmem k (a_segs s)); [exact H|]. apply IH.
  destruct H as [H1 H2 H3]. constructor.
  - intros j. cbn. rewrite losses_cons. specialize (H1 j). unfold rc, occ in *. cbn in *. rewrite count_cons in H1. destruct (j =? k)%N; lia.
  - exact H2.
  - unfold failed. cbn. intros [H|(rs & [H|H])]; [|discriminate|]; apply spent_cons, H3; [now left|right; eauto].
Qed.
Lemma set_retxq_same s : set_retxq (a_retxq s) s = s.
Proof. destruct s; reflexivity. Qed.
Lemma paid_sendOne s : Paid s -> Paid (sendOne P C s).
Proof.
  intros H. unfold sendOne. cbv zeta.
  assert (H1 : Paid (dropSkipped (a_retxq s) s)) by (apply paid_dropSkipped; now rewrite set_retxq_same).
  set (s1 := dropSkipped _ s) in *. clearbody s1. clear H.
  destruct (a_retxq s1) as [|seg q] eqn:Eq.
  - destruct (b_getNext (a_b s1)) as [k b]. unfold sendInterest.
    assert (H2 : Paid (set_b b s1)) by (revert H1; apply paid_same; reflexivity).
    destruct (isStopping _); [exact H2|]. destruct (_ && _); [exact H2|]. destruct (_ && _); [exact H2|].
    now apply paid_express.
  - destruct H1 as [H1 H2 H3].
    assert (HQ : forall j, rc j s1 + count (N.eqb j) q + b2z (N.eqb j seg) <= losses j (a_tr s1)).
    { intros j. specialize (H1 j). unfold occ in H1. rewrite Eq, count_cons in H1. unfold b2z. lia. }
    assert (H0 : Paid (set_retxq q s1)).
    { constructor; [|exact H2|exact H3]. intros j. specialize (HQ j). unfold rc, occ, b2z in *. cbn. destruct (j =? seg)%N; lia. }
    unfold sendInterest. destruct (isStopping _); [exact H0|]. destruct (_ && _); [exact H0|]. cbn [negb andb].
    assert (HS : forall m, 1 <= m -> m <= rc seg s1 + 1 -> Paid (set_retxCount (kset seg m (a_retxCount s1)) (set_retxq q s1))).
    { intros m Hm1 Hm. constructor.
      - intros j. specialize (HQ j). unfold rc, occ, b2z in *. cbn. rewrite kget_kset. destruct (N.eqb_spec j seg) as [E|E]; [rewrite E in HQ|-*|]; lia.
      - intros j m'. cbn. rewrite kget_kset. destruct (N.eqb j seg); [intros [= <-]; exact Hm1|apply H2].
      - exact H3. }
    change (a_retxCount (set_retxq q s1)) with (a_retxCount s1).
    pose proof (HQ seg) as HQs. rewrite N.eqb_refl in HQs.
    destruct (kget seg (a_retxCount s1)) as [m|] eqn:Em.
    + assert (Erc : rc seg s1 = m) by (unfold rc; now rewrite Em).
      pose proof (H2 _ _ Em) as Hm1.
      assert (HS' : Paid (set_retxCount (kset seg (m + 1) (a_retxCount s1)) (set_retxq q s1))) by (apply HS; lia).
      destruct (negb (r =? MAX_RETRIES_INFINITE) && (r <? m + 1)) eqn:Eg; [|now apply paid_express].
      apply paid_handleFail; [|exact HS']. cbn. exists seg. right. unfold MAX_RETRIES_INFINITE in Eg.
      unfold b2z in HQs. pose proof (count_nonneg (N.eqb seg) q). lia.
    + apply paid_express, HS; [lia|]. unfold rc. rewrite Em. lia.
Qed.
Lemma paid_iter n : forall s, Paid s -> Paid (iter n (sendOne P C) s).
Proof. induction n as [|n IH]; intros s H; cbn [iter]; [exact H|]. now apply IH, paid_sendOne. Qed.
Lemma paid_schedule s : Paid s -> Paid (schedulePackets P C s).
Proof.
  intros H. unfold schedulePackets. cbv zeta. apply paid_iter.
  destruct (_ <? _); [|exact H]. revert H. apply (paid_emit OAssert); reflexivity.
Qed.
Lemma paid_recordTimeout seg s : Paid s -> Paid (recordTimeout P C seg s).
Proof.
  intros H. unfold recordTimeout. destruct (_ || _); [|exact H].
  apply (paid_emit (OWindow (p_floor P (p_decr P (a_now s) (a_cwnd s)))) s
           (emit (OWindow (p_floor P (p_decr P (a_now s) (a_cwnd s)))) s)) in H; [|reflexivity..].
  revert H. apply (paid_emit (ODecrLoss seg)); reflexivity.
Qed.
(** the loss has just been recorded *)
Definition owed seg s : Prop :=
  (forall k, rc k s + occ k s + b2z (N.eqb k seg) <= losses k (a_tr s)) /\ Paid s.
Lemma paid_enqueue seg s : owed seg s -> Paid (enqueueForRetransmission seg s).
Proof.
  intros [HO HP]. unfold enqueueForRetransmission.
  set (s1 := if 0 <? a_nInFlight s then s else emit OAssert s).
  assert (H : (forall k, rc k s1 + occ k s1 + b2z (N.eqb k seg) <= losses k (a_tr s1)) /\ Paid s1).
  { unfold s1. destruct (_ <? _); [auto|]. split.
    - intros k. cbn. rewrite losses_cons. cbn. apply HO.
    - revert HP. apply (paid_emit OAssert); reflexivity. }
  clearbody s1. destruct H as [H1 [_ H2 H3]].
  assert (HX : Paid (set_retxq (a_retxq s1 ++ [seg]) (set_nInFlight (a_nInFlight s1 - 1) s1))).
  { constructor; [|exact H2|exact H3]. intros k. specialize (H1 k). unfold rc, occ, b2z in *. cbn.
    rewrite count_app, count_cons, count_nil. destruct (k =? seg)%N; lia. }
  cbn [set_retxq set_nInFlight a_segs] in *. destruct (kget seg (a_segs s1)).
  - revert HX. apply paid_same; reflexivity.
  - revert HX. apply (paid_emit OThrow); reflexivity.
Qed.
Lemma owed_emit o seg s s' : lost seg o = true -> a_tr s' = o :: a_tr s -> a_retxq s' = a_retxq s ->
  a_retxCount s' = a_retxCount s -> a_hasFailure s' = a_hasFailure s -> nofail o = true -> Paid s -> owed seg s'.
Proof.
  intros Hl E1 E2 E3 E4 E5 HP. split; [|eapply (paid_emit o s); eauto].
  destruct HP as [H1 _ _]. intros k. specialize (H1 k). unfold rc, occ in *. rewrite E1, E2, E3, losses_cons.
  unfold b2z. destruct (N.eqb_spec k seg) as [->|]; [rewrite Hl; lia|]. destruct (lost k o); lia.
Qed.
Lemma paid_checkRto1 s has high seg : Paid s -> Paid (fst (fst (checkRto1 (s, has, high) seg))).
Proof.
  intros H. unfold checkRto1. destruct (kget seg (a_segs s)); [|exact H]. destruct (_ && _); [|exact H].
  cbv zeta. cbn [fst]. apply paid_enqueue. revert H. apply (owed_emit (ORto seg)); try reflexivity. apply N.eqb_refl.
Qed.
Lemma paid_checkRto_fold l : forall acc, Paid (fst (fst acc)) -> Paid (fst (fst (fold_left checkRto1 l acc))).
Proof.
  induction l as [|k l IH]; intros [[s has] high] H; cbn [fold_left]; [exact H|].
  apply IH, paid_checkRto1, H.
Qed.
Lemma paid_checkRto order s : Paid s -> Paid (checkRto P C order s).
Proof.
  intros HP. unfold checkRto. destruct (isStopping s); [exact HP|].
  pose proof (paid_checkRto_fold (visit_order order (keys (a_segs s))) (s, false, 0%N) HP) as H.
  destruct (fold_left _ _ _) as [[s1 has] high]. cbn [fst] in H. destruct (a_crashed s1); [exact H|].
  destruct has; [|revert H; apply paid_same; reflexivity].
  apply (paid_recordTimeout high), paid_schedule in H. revert H. apply paid_same; reflexivity.
Qed.
Lemma paid_lost seg s : owed seg s -> Paid (let s1 := enqueueForRetransmission seg s in
             if a_crashed s1 then s1 else schedulePackets P C (recordTimeout P C seg s1)).
Proof.
  intros H. apply paid_enqueue in H. cbv zeta. destruct (a_crashed _); [exact H|].
  now apply paid_schedule, paid_recordTimeout.
Qed.
Lemma paid_learnFbi d s : Paid s -> Paid (fst (learnFbi d s)).
Proof.
  intros HP. unfold learnFbi. destruct (hasFbi s); [exact HP|]. destruct (d_fbi d) as [|n|]; [exact HP| |].
  - assert (H : Paid (cancelGreater n (set_b (b_setFbi n (a_b s)) s))).
    { apply paid_cancelGreater. revert HP. apply paid_same; reflexivity. }
    cbv zeta. set (s1 := cancelGreater n _) in *. clearbody s1. destruct (a_hasFailure s1 && _) eqn:E; cbn [fst].
    + apply andb_prop in E. destruct E as [E _]. apply paid_onFailure; [|exact H]. apply (P_fail _ H). now left.
    + destruct H as [H1 H2 H3]. constructor; [exact H1|exact H2|]. intros [F|F]; [discriminate|]. apply H3. now right.
  - cbn [fst]. revert HP. apply (paid_emit OThrow); reflexivity.
Qed.
Lemma paid_handleData seg d s : Paid s -> Paid (handleData P C seg d s).
Proof.
  intros HP. rewrite handleData_unfold. destruct (stopping s); [exact HP|].
  pose proof (paid_learnFbi d s HP) as H. destruct (learnFbi d s) as [s1 cont]. cbn [fst] in H.
  destruct (negb cont); [exact H|]. destruct (kget seg (a_segs s1)) as [i|]; [|exact H].
  cbv zeta.
  assert (H1 : Paid (taken C P seg d i s1)).
  { unfold taken. match goal with |- context [adaptWindow P C seg d ?x] => assert (HX : Paid x) end.
    { destruct (state_eqb _ _); revert H; apply paid_same; reflexivity. }
    match goal with |- context [adaptWindow P C seg d ?x] => set (s2 := x) in * end. clearbody s2. clear H.
    assert (HY : Paid (adaptWindow P C seg d s2)).
    { unfold adaptWindow. destruct (d_mark d); cbv zeta; [|revert HX; eapply paid_emit; reflexivity].
      destruct (negb _); [destruct (_ || _)|].
      - apply (paid_emit (ODecrMark seg) s2 (emit (ODecrMark seg) s2)) in HX; [|reflexivity..].
        revert HX. eapply paid_emit; reflexivity.
      - revert HX. apply paid_same; reflexivity.
      - revert HX. eapply paid_emit; reflexivity. }
    unfold onData. set (s3 := adaptWindow P C seg d s2) in *. clearbody s3.
    assert (HZ : Paid (emit (ODeliver seg d) (set_b (b_received d (a_b s3)) s3))) by (revert HY; eapply paid_emit; reflexivity).
    destruct (c_cbThrows C d); [|exact HZ]. revert HZ. apply (paid_emit OThrow); reflexivity. }
  set (s2 := taken C P seg d i s1) in *. clearbody s2. destruct (a_crashed s2); [exact H1|].
  set (s3 := sampleRtt P seg i (a_now s1 - si_timeSent i) s2).
  assert (H2 : Paid (set_segs (kdel seg (a_segs s3)) s3)).
  { assert (H3 : Paid s3).
    { unfold s3, sampleRtt. destruct (_ && _); [|exact H1]. revert H1. eapply paid_emit; reflexivity. }
    revert H3. apply paid_same; reflexivity. }
  set (s4 := set_segs _ s3) in *. clearbody s4. destruct (b_allReceived _).
  - apply paid_cancel in H2. revert H2. eapply paid_emit; reflexivity.
  - now apply paid_schedule.
Qed.
Lemma paid_fromFace seg (h : st -> st) s : Paid s -> (forall s', Paid s' -> Paid (h s')) -> Paid (fromFace seg h s).
Proof.
  intros HP H. unfold fromFace. destruct (kget seg (a_segs s)) as [i|]; [|exact HP].
  destruct (si_live i); [|exact HP]. apply H. revert HP. apply paid_same; reflexivity.
Qed.
Lemma paid_step s e : Paid s -> Paid (a_step P C s e).
Proof.
  intros HP. unfold a_step. destruct (a_crashed s) eqn:Ec; [exact HP|]. destruct e as [seg d|seg rr|seg|order|dt|].
  - apply paid_fromFace; [exact HP|]. intros s' H. apply paid_handleData. revert H. eapply paid_emit; reflexivity.
  - apply paid_fromFace; [exact HP|]. intros s' H.
    assert (H1 : Paid (emit (OGotNack seg rr) s')) by (revert H; eapply paid_emit; reflexivity).
    unfold handleNack. destruct (isStopping _); [exact H1|].
    assert (Hf : rr <> NrDuplicate -> rr <> NrCongestion -> Paid (handleFail seg (RNack seg rr) (emit (OGotNack seg rr) s'))).
    { intros F1 F2. apply paid_handleFail; [|exact H1]. exists seg. left. exists rr. repeat split; auto. now left. }
    destruct rr; try (apply Hf; discriminate); [|exact H1].
    apply paid_lost. revert H. apply (owed_emit (OGotNack seg NrCongestion)); try reflexivity. apply N.eqb_refl.
  - apply paid_fromFace; [exact HP|]. intros s' H.
    unfold handleLifetimeExpiration. destruct (isStopping _); [revert H; eapply paid_emit; reflexivity|].
    match goal with |- context [enqueueForRetransmission seg ?x] => apply (paid_lost seg x) end.
    revert H. apply (owed_emit (OGotExpiry seg)); try reflexivity. apply N.eqb_refl.
  - destruct (a_timer s); [|exact HP]. apply paid_checkRto. revert HP. apply paid_same; reflexivity.
  - revert HP. apply paid_same; reflexivity.
  - apply paid_cancel. revert HP. eapply paid_emit; reflexivity.
Qed.
Lemma paid_run es : Paid (a_run P C es).
Proof.
  unfold a_run. apply fold_left_inv.
  - intros. now apply paid_step.
  - unfold doRun. change (b_allReceived (a_b (a_init P))) with false. cbn match. apply paid_schedule.
    constructor; cbn.
    + intros k. unfold rc, occ, losses, count. cbn. lia.
    + discriminate.
    + intros [H|(rs & [])]. discriminate.
Qed.

(** * First requests while no Data arrives *)
Section Phase.
Variables (B L0 D0 M : Z).
Hypothesis HB : forall w, p_floor P w <= B.
Hypothesis HM : L0 + B + D0 <= M.

Definition gap s : Z := Z.of_nat (length (a_segs s)) - a_nInFlight s - count (fun k => kmem k (a_segs s)) (a_retxq s).
Definition gone s : Prop := stopping s = true \/ a_hasFailure s = true.
Definition Ph s : Prop :=
  gone s \/ (hasFbi s = false /\ Z.of_nat (length (dl (a_tr s))) = L0 /\ gap s <= D0 /\ Z.of_N (nf (a_tr s)) <= M).

Lemma gone_mf s s' : monof s s' -> gone s -> gone s'.
Proof. intros [(_ & H1 & _) H2] [H|H]; [left|right]; auto. Qed.
Lemma gone_or s : gone s \/ (stopping s = false /\ a_hasFailure s = false).
Proof. unfold gone. destruct (stopping s), (a_hasFailure s); auto. Qed.

Lemma ph_same s s' : monof s s' -> b_hasFbi (a_b s') = b_hasFbi (a_b s) -> dl (a_tr s') = dl (a_tr s) -> nf (a_tr s') = nf (a_tr s) ->
  length (a_segs s') = length (a_segs s) -> a_nInFlight s' = a_nInFlight s ->
  count (fun k => kmem k (a_segs s')) (a_retxq s') = count (fun k => kmem k (a_segs s)) (a_retxq s) -> Ph s -> Ph s'.
Proof.
  intros Hm E1 E2 E3 E4 E5 E6 [H|(H1 & H2 & H3 & H4)]; [left; eapply gone_mf; eauto|right].
  unfold gap in *. rewrite E1, E2, E3, E4, E5, E6. auto.
Qed.

Lemma ph_dropSkipped q : forall s, Ph (set_retxq q s) -> Ph (dropSkipped q s).
Proof.
  induction q as [|k q IH]; intros s H; cbn [dropSkipped]; [exact H|].
  destruct (kmem k (a_segs s)) eqn:E; [exact H|]. apply IH. revert H. apply ph_same; try reflexivity.
  - eapply (monof_emit (OSkip k)); try reflexivity. now left.
  - cbn. rewrite count_cons, E. lia.
Qed.

Lemma count_kset_old k i m q : kmem k m = true ->
  count (fun x => kmem x (kset k i m)) q = count (fun x => kmem (A := seginfo) x m) q.
Proof.
  intros H. apply count_ext. intros x _. rewrite kmem_kset. destruct (N.eqb_spec x k) as [->|]; [now rewrite H|reflexivity].
Qed.

Lemma first_bound s : Live C s -> stopping s = false -> hasFbi s = false -> a_hasFailure s = false ->
  Z.of_N (nf (a_tr s)) <= Z.of_nat (length (dl (a_tr s))) + Z.of_nat (length (a_segs s)) /\ nf (a_tr s) = b_next (a_b s).
Proof.
  intros [HA HR] Hs Hf Hx. specialize (HR Hs). split.
  - assert (H : (length (upto (N.to_nat (nf (a_tr s)))) <= length (dl (a_tr s) ++ keys (a_segs s)))%nat).
    { apply NoDup_incl_length.
      - unfold upto. apply FinFun.Injective_map_NoDup; [intros x y; apply Nat2N.inj|apply seq_NoDup].
      - intros k Hk. apply in_upto in Hk. apply in_or_app.
        destruct (R_cov _ _ HR k) as [H|[H|[[H _]|[_ [H _]]]]]; [lia|now left|right; now apply kmem_keys|congruence|congruence]. }
    rewrite length_upto, app_length in H. unfold keys in H. rewrite map_length in H. lia.
  - destruct (R_phase _ _ HR) as [H|[[H _]|[_ H]]]; [exact H|congruence|congruence].
Qed.

Lemma ph_sendOne s : Live C s -> a_nInFlight s < p_floor P (a_cwnd s) -> Ph s ->
  Ph (sendOne P C s) /\ a_nInFlight (sendOne P C s) <= a_nInFlight s + 1 /\ a_cwnd (sendOne P C s) = a_cwnd s.
Proof.
  intros HL Hw HP. unfold sendOne.
  assert (HL' : Live C (set_retxq (a_retxq s) s)) by (rewrite set_retxq_same; exact HL).
  assert (HP' : Ph (set_retxq (a_retxq s) s)) by (rewrite set_retxq_same; exact HP).
  destruct (live_dropSkipped C _ _ HL') as (HL1 & (Eb & Es & En & Ew & _) & Hhd).
  apply ph_dropSkipped in HP'.
  set (s1 := dropSkipped (a_retxq s) s) in *. rewrite <- Es in Hhd. rewrite <- En, <- Ew in *. clearbody s1.
  clear s HL HL' HP Eb Es En Ew. rename HP' into HP.
  destruct (a_retxq s1) as [|seg q] eqn:Eq.
  - cbn [b_getNext]. unfold sendInterest, isStopping.
    cbn [set_b a_b b_stopping b_hasFbi b_last b_next a_hasFailure negb andb].
    set (s2 := set_b _ s1).
    assert (H2 : Ph s2) by (revert HP; apply ph_same; try reflexivity; apply monof_same; reflexivity).
    destruct (stopping s1) eqn:Hs; [split; [exact H2|split; [cbn; lia|reflexivity]]|].
    destruct (hasFbi s1 && _) eqn:E1; [split; [exact H2|split; [cbn; lia|reflexivity]]|].
    destruct (a_hasFailure s1) eqn:E2; [split; [exact H2|split; [cbn; lia|reflexivity]]|].
    split; [|split; [cbn; lia|reflexivity]].
    destruct HP as [[H|H]|(F1 & F2 & F3 & F4)]; [congruence|congruence|right].
    destruct (first_bound s1 HL1 Hs F1 E2) as [HN Hnext].
    assert (Hk : kmem (b_next (a_b s1)) (a_segs s1) = false).
    { destruct (kmem _ _) eqn:Ek; [|reflexivity]. destruct HL1 as [_ HR]. apply (R_keys _ _ (HR Hs)) in Ek. lia. }
    unfold gap in *. rewrite Eq, count_nil in F3. pose proof (HB (a_cwnd s1)).
    cbn. rewrite length_kset, Hk, Eq, count_nil. split; [exact F1|]. split; [exact F2|]. split; [lia|]. lia.
  - specialize (Hhd _ _ eq_refl). destruct HL1 as [HA HR].
    destruct (stopping s1) eqn:Hs; [exfalso; rewrite (A_stop _ _ HA Hs) in Hhd; discriminate|]. specialize (HR eq_refl).
    unfold sendInterest, isStopping. cbn [set_retxq a_b b_stopping]. rewrite Hs.
    change (a_retxCount (set_retxq q s1)) with (a_retxCount s1).
    destruct (hasFbi s1 && N.ltb (last s1) seg) eqn:E1.
    { exfalso. apply andb_prop in E1. destruct E1 as [Ef El]. apply N.ltb_lt in El.
      pose proof (R_last _ _ HR seg Ef Hhd). lia. }
    clear E1. cbn [negb andb].
    assert (Hex : forall m, Ph (express P seg true (set_retxCount (kset seg m (a_retxCount s1)) (set_retxq q s1)))).
    { intros m. destruct HP as [[H|H]|(F1 & F2 & F3 & F4)]; [congruence|left; right; exact H|right].
      unfold gap in *. rewrite Eq, count_cons, Hhd in F3. cbn. rewrite length_kset, Hhd, count_kset_old by exact Hhd.
      split; [exact F1|]. split; [exact F2|]. split; [lia|exact F4]. }
    destruct (kget seg (a_retxCount s1)) as [m|].
    + destruct (_ && _).
      * match goal with |- context[handleFail ?a ?b ?c] =>
          pose proof (nInFlight_handleFail a b c) as [H1 H2];
          assert (HE : stopping (handleFail a b c) = true \/ a_hasFailure (handleFail a b c) = true) end.
        { apply handleFail_ends; [exact Hs|]. cbn. intros Ef. apply (R_last _ _ HR seg Ef Hhd). }
        split; [left; exact HE|]. split; [cbn in H1; lia|exact H2].
      * split; [apply Hex|split; [cbn; lia|reflexivity]].
    + split; [apply Hex|split; [cbn; lia|reflexivity]].
Qed.
Lemma ph_iter n : forall s, Live C s -> (n = O \/ a_nInFlight s + Z.of_nat n <= p_floor P (a_cwnd s)) -> Ph s ->
  Ph (iter n (sendOne P C) s).
Proof.
  induction n as [|n IH]; intros s HL Hn HP; cbn [iter]; [exact HP|].
  destruct (ph_sendOne s HL) as (H1 & H2 & H3); [lia|exact HP|].
  apply IH; [now apply live_sendOne|rewrite H3; lia|exact H1].
Qed.
Lemma ph_schedule s : Live C s -> Ph s -> Ph (schedulePackets P C s).
Proof.
  intros HL HP. unfold schedulePackets. set (s1 := if a_nInFlight s <? 0 then emit OAssert s else s).
  assert (H : Live C s1 /\ Ph s1 /\ a_nInFlight s1 = a_nInFlight s /\ a_cwnd s1 = a_cwnd s).
  { unfold s1. destruct (a_nInFlight s <? 0); [|tauto].
    split; [apply live_neutral; cbn; auto|]. split; [|auto].
    revert HP. apply ph_same; try reflexivity. eapply (monof_emit OAssert); try reflexivity. now left. }
  clearbody s1. destruct H as (HL1 & HP1 & E1 & E2). apply ph_iter; auto. rewrite ?E1, ?E2. lia.
Qed.
Lemma ph_recordTimeout seg s : Ph s -> Ph (recordTimeout P C seg s).
Proof.
  intros HP. pose proof (mf_recordTimeout C P seg s) as HM'. revert HP. apply ph_same; [exact HM'|..];
    unfold recordTimeout; destruct (_ || _); reflexivity.
Qed.
Lemma ph_enqueue seg s : kmem seg (a_segs s) = true -> Ph s -> Ph (enqueueForRetransmission seg s).
Proof.
  intros Hm [H|(F1 & F2 & F3 & F4)]; [left; eapply gone_mf; [apply mf_enqueue|exact H]|right].
  pose proof Hm as Hm'. apply kmem_true in Hm'. destruct Hm' as [i Hi].
  unfold enqueueForRetransmission. destruct (0 <? a_nInFlight s); cbn; rewrite Hi; cbn; unfold gap in *; cbn;
    rewrite length_kset, Hm, count_kset_old, count_app, count_cons, count_nil, Hm by exact Hm;
    (split; [exact F1|]; split; [exact F2|]; split; [lia|exact F4]).
Qed.
Lemma ph_checkRto1 s has high seg : Ph s -> Ph (fst (fst (checkRto1 (s, has, high) seg))).
Proof.
  intros HP. unfold checkRto1. destruct (kget seg (a_segs s)) as [i|] eqn:E; [|exact HP]. destruct (_ && _); [|exact HP].
  cbv zeta. cbn [fst]. apply ph_enqueue; [apply kmem_true; exists i; exact E|].
  revert HP. apply ph_same; try reflexivity. eapply (monof_emit (ORto seg)); try reflexivity. now left.
Qed.
Lemma ph_checkRto_fold l : forall acc, Ph (fst (fst acc)) -> Ph (fst (fst (fold_left checkRto1 l acc))).
Proof.
  induction l as [|k l IH]; intros [[s has] high] H; cbn [fold_left]; [exact H|]. apply IH, ph_checkRto1, H.
Qed.
Lemma ph_set_timer v s : Ph s -> Ph (set_timer v s).
Proof. intros H. exact H. Qed.
Lemma ph_checkRto order s : Live C s -> Ph s -> Ph (checkRto P C order s).
Proof.
  intros HL HP. unfold checkRto, isStopping. destruct (stopping s) eqn:Hs; [exact HP|].
  pose proof (ph_checkRto_fold (visit_order order (keys (a_segs s))) (s, false, 0%N) HP) as H.
  pose proof (live_checkRto_fold C (visit_order order (keys (a_segs s))) s false 0%N HL
                (or_intror (conj eq_refl eq_refl)) Hs) as HX.
  pose proof (checkRto_fold_none (visit_order order (keys (a_segs s))) s 0%N) as Hn.
  destruct (fold_left _ _ _) as [[s1 has] high]. cbn [fst snd] in *. destruct HX as (HL1 & Hh1 & _).
  destruct (a_crashed s1); [exact H|]. destruct has; [|exact H].
  apply ph_set_timer, ph_schedule; [|now apply ph_recordTimeout].
  destruct Hh1 as [[Hh1 Hh2]|[Hh1 _]]; [|discriminate]. now apply live_recordTimeout.
Qed.
Lemma ph_lost seg s :
  stopping s = false -> kmem seg (a_segs s) = true -> slack s -> lostIn seg (a_tr s) -> Live C s -> Ph s ->
  Ph (let s1 := enqueueForRetransmission seg s in
      if a_crashed s1 then s1 else schedulePackets P C (recordTimeout P C seg s1)).
Proof.
  intros Hs Hm Hsl (o & Ho1 & Ho2) HL HP. destruct (live_enqueue C seg s Hm Hsl HL) as (HL1 & HK & _).
  pose proof (ph_enqueue seg s Hm HP) as H1.
  cbv zeta. set (s1 := enqueueForRetransmission seg s) in *. clearbody s1.
  destruct (a_crashed s1); [exact H1|]. apply ph_schedule; [apply live_recordTimeout; [| |exact HL1]|now apply ph_recordTimeout];
  unfold keep in HK; destruct HK as (_ & _ & _ & E & _ & K).
  - rewrite E. destruct HL as [_ HR]. apply (R_keys _ _ (HR Hs)); auto.
  - exists o. auto.
Qed.
Lemma ph_fromFace seg (h : st -> st) s :
  Live C s -> Ph s ->
  (forall s', stopping s' = false -> kmem seg (a_segs s') = true -> Live C s' -> Ph s' -> Ph (h s')) ->
  Ph (fromFace seg h s).
Proof.
  intros HL HP Hk. unfold fromFace.
  destruct (kget seg (a_segs s)) as [i|] eqn:Ei; [|exact HP]. destruct (si_live i); [|exact HP].
  assert (Hs : stopping s = false).
  { destruct (stopping s) eqn:E; [|reflexivity]. destruct HL as [HA _].
    rewrite (A_stop _ _ HA E) in Ei. discriminate. }
  assert (Hm : kmem seg (a_segs s) = true) by (apply kmem_true; eauto).
  apply Hk; cbn; auto.
  - rewrite kmem_kset, N.eqb_refl. reflexivity.
  - eapply live_kset_info; eauto. cbn. intros Hq. destruct HL as [_ HR]. eapply (R_q _ _ (HR Hs)); eauto.
  - revert HP. apply ph_same; try reflexivity.
    + apply monof_same; reflexivity.
    + cbn. now rewrite length_kset, Hm.
    + cbn. now apply count_kset_old.
Qed.
Lemma ph_step s e : match e with AeData _ _ => False | _ => True end ->
  a_crashed s = false -> Live C s -> Ph s -> Ph (a_step P C s e).
Proof.
  intros He Hc HL HP. unfold a_step. rewrite Hc. destruct e as [seg d|seg rr|seg|order|dt|]; [contradiction| | | | |].
  - apply ph_fromFace; auto. intros s' Hs' Hm HL' HP'.
    assert (Hlt : (seg < nf (a_tr s'))%N) by (destruct HL' as [_ HR]; apply (R_keys _ _ (HR Hs')); auto).
    assert (H1 : Ph (emit (OGotNack seg rr) s')).
    { revert HP'. apply ph_same; try reflexivity. eapply (monof_emit (OGotNack seg rr)); try reflexivity. now left. }
    unfold handleNack, isStopping. cbn [emit set_tr a_b]. rewrite Hs'.
    assert (HF : Ph (handleFail seg (RNack seg rr) (emit (OGotNack seg rr) s'))).
    { left. apply handleFail_ends; [exact Hs'|].
      cbn. intros Hf. destruct HL' as [_ HR']. apply (R_last _ _ (HR' Hs') seg Hf Hm). }
    destruct rr; try exact HF; [|exact H1].
    apply ph_lost; [exact Hs'|exact Hm|eapply live_lost; eauto| |eapply live_lost; eauto|exact H1].
    eexists. split; [now left|]. apply N.eqb_refl.
  - apply ph_fromFace; auto. intros s' Hs' Hm HL' HP'.
    unfold handleLifetimeExpiration, isStopping. cbn [emit set_tr a_b]. rewrite Hs'.
    assert (Hlt : (seg < nf (a_tr s'))%N) by (destruct HL' as [_ HR]; apply (R_keys _ _ (HR Hs')); auto).
    destruct (live_timeout C (OGotExpiry seg) s' Hlt HL') as [HL1 Hsl1].
    apply ph_lost; [exact Hs'|exact Hm|exact Hsl1| |exact HL1|].
    + eexists. split; [now left|]. apply N.eqb_refl.
    + revert HP'. apply ph_same; try reflexivity. eapply (monof_emit (OGotExpiry seg)); try reflexivity. now left.
  - destruct (a_timer s); [|exact HP]. apply ph_checkRto; [now apply live_set_timer|exact HP].
  - exact HP.
  - left. left. unfold cancel, isStopping. cbn. destruct (stopping s) eqn:E; [exact E|reflexivity].
Qed.
End Phase.

(** * Data is progress *)
Lemma dl_ext t t' : ext t t' -> (length (dl t) <= length (dl t'))%nat.
Proof. intros [l ->]. rewrite dl_app, app_length. lia. Qed.

Lemma dl_taken seg d i s : (length (dl (a_tr s)) < length (dl (a_tr (taken C P seg d i s))))%nat.
Proof.
  unfold taken. set (s1 := if state_eqb _ _ then _ else _).
  assert (E : a_tr s1 = a_tr s) by (unfold s1; destruct (state_eqb _ _); reflexivity).
  pose proof (mf_adapt C P seg d s1) as [[H _] _]. apply dl_ext in H. rewrite E in H.
  unfold onData. destruct (c_cbThrows C d); cbn; rewrite ?app_length; cbn; lia.
Qed.

Lemma data_delivers seg d s :
  Live C s -> stopping s = false -> a_crashed s = false -> kmem seg (a_segs s) = true ->
  (forall m, d_fbi d = FbiSegment m -> (seg <= m)%N) ->
  let s' := handleData P C seg d (emit (OGotData seg d) s) in
  stopping s' = true \/ a_crashed s' = true \/ (length (dl (a_tr s)) < length (dl (a_tr s')))%nat.
Proof.
  intros HL Hs Hc Hm Hd. cbv zeta. rewrite (handleData_unfold C P). cbn [emit set_tr a_b]. rewrite Hs.
  assert (Hl0 : (seg < nf (a_tr s))%N) by (destruct HL as [_ HR]; apply (R_keys _ _ (HR Hs)); auto).
  pose proof (inv_learnFbi C seg d s Hs Hc Hl0 HL) as H.
  pose proof (learnFbi_keeps seg d (emit (OGotData seg d) s) Hm Hd) as K.
  pose proof (mono_learnFbi d (emit (OGotData seg d) s)) as (HM & _).
  cbn [emit] in H, K, HM. destruct (learnFbi d _) as [s1 cont]. cbn [fst snd] in K, HM.
  destruct H as (HI & Hcont & Hend). destruct cont; cbn [negb].
  2:{ destruct (Hend eq_refl); auto. }
  specialize (K eq_refl).
  cbn [set_tr a_tr] in HM. apply (ext_tran _ _ _ (ext_tl _ _)) in HM. apply dl_ext in HM.
  apply kmem_true in K. destruct K as [i Ei]. rewrite Ei. cbv zeta.
  pose proof (dl_taken seg d i s1) as HT. set (s2 := taken C P seg d i s1) in *. clearbody s2.
  destruct (a_crashed s2) eqn:Hc2; [right; left; exact Hc2|]. right. right.
  pose proof (mf_sample P seg i (a_now s1 - si_timeSent i) s2) as [[H3 _] _]. apply dl_ext in H3.
  set (s3 := sampleRtt _ _ _ _ _) in *. clearbody s3.
  set (s4 := set_segs _ s3). change (a_tr s3) with (a_tr s4) in H3. clearbody s4. destruct (b_allReceived (a_b s4)).
  - pose proof (mf_cancel s4) as [[H4 _] _]. apply dl_ext in H4. cbn. lia.
  - pose proof (mf_schedule C P s4) as [[H4 _] _]. apply dl_ext in H4. lia.
Qed.

(** * The transfer ends *)
Section Forever.
Variables (n : N) (f : nat -> aevent) (b B : Z).
Let S m : st := a_run P C (first m f).
Hypothesis Hh : forall m k d, In (OGotData k d) (a_tr (S m)) -> (k <= n)%N /\ (d_fbi d = FbiAbsent \/ d_fbi d = FbiSegment n).
Hypothesis Hw0 : 1 <= p_floor P (p_initW P).
Hypothesis Hw : forall m w, In (OWindow w) (a_tr (S m)) -> 1 <= w.
Hypothesis HB : forall w, p_floor P w <= B.
Hypothesis Hcr : forall m seg, cr seg (a_tr (S m)) <= b.
Definition bad m : Prop := ended (a_tr (S m)) = true \/ In OThrow (a_tr (S m)).
Hypothesis Hnf : forall m, ~ bad m -> a_hasFailure (S m) = false.
Hypothesis Hgo : keeps_going f.

Lemma S_step m : S (Datatypes.S m) = a_step P C (S m) (f m).
Proof.
  unfold S, a_run. replace (Datatypes.S m) with (m + 1)%nat by lia.
  rewrite first_app, fold_left_app. reflexivity.
Qed.
Lemma S_ext m q : ext (a_tr (S m)) (a_tr (S (m + q))).
Proof.
  induction q as [|q IH]; [rewrite Nat.add_0_r; apply ext_refl|].
  replace (m + Datatypes.S q)%nat with (Datatypes.S (m + q)) by lia. rewrite S_step.
  eapply ext_tran; [exact IH|apply wk_step].
Qed.
Lemma bad_mono m q : bad m -> bad (m + q)%nat.
Proof.
  intros [H|H]; [left|right].
  - destruct (S_ext m q) as [l ->]. rewrite ended_app, H. apply orb_true_r.
  - eapply ext_in; [apply S_ext|exact H].
Qed.
Lemma bad_state m : stopping (S m) = true \/ a_crashed (S m) = true -> bad m.
Proof.
  intros [H|H].
  - left. destruct (inv_run C P (first m f)) as [HA _]. fold (S m) in HA. now rewrite (A_end _ _ HA).
  - right. unfold S in *. now apply crash_thrown.
Qed.
Lemma bad_dec m : bad m \/ (~ bad m /\ stopping (S m) = false /\ a_crashed (S m) = false).
Proof.
  assert (H : bad m \/ ~ bad m).
  { unfold bad. destruct (ended (a_tr (S m))); [now left; left|].
    destruct (existsb (fun o => match o with OThrow => true | _ => false end) (a_tr (S m))) eqn:E.
    - left. right. apply existsb_exists in E. destruct E as (o & Hi & Ho). now destruct o.
    - right. intros [H|H]; [discriminate|]. apply not_true_iff_false in E. apply E, existsb_exists. exists OThrow. auto. }
  destruct H as [H|H]; [now left|right]. split; [exact H|].
  pose proof (bad_state m) as HB'. destruct (stopping (S m)); [tauto|]. destruct (a_crashed (S m)); tauto.
Qed.
Lemma S_live m : a_crashed (S m) = false -> Live C (S m).
Proof. intros H. apply inv_live; [exact H|apply inv_run]. Qed.
Lemma S_busy m : ~ bad m -> stopping (S m) = false -> a_crashed (S m) = false -> a_timer (S m) = true /\ Busy (S m).
Proof.
  intros Hn Hs Hc. pose proof (prog_run C P n (first m f) Hw0 (Hw m) (Hh m) Hc Hs) as [H1 H2]. fold (S m) in H1, H2.
  split; [exact H1|]. apply H2. now apply Hnf.
Qed.

(** what the pipeline has received, plus the timers that expired *)
Definition heard (t : list pobs) : Z := count is_got t + count is_rto t.
Lemma heard_app l t : heard (l ++ t) = heard l + heard t.
Proof. unfold heard. rewrite !count_app. lia. Qed.
Lemma heard_pos t : 0 <= heard t.
Proof. unfold heard. pose proof (count_nonneg is_got t). pose proof (count_nonneg is_rto t). lia. Qed.
Lemma heard_ext t t' : ext t t' -> heard t <= heard t'.
Proof. intros [l ->]. rewrite heard_app. pose proof (heard_pos l). lia. Qed.

Lemma set_now_same s : set_now (a_now s + 0) s = s.
Proof. destruct s. unfold set_now. cbn. f_equal. lia. Qed.
Lemma face_quiet seg o (h : st -> st) s : is_got o = true -> (forall s', ext (o :: a_tr s') (a_tr (h s'))) ->
  fromFace seg h s = s \/ heard (a_tr s) < heard (a_tr (fromFace seg h s)).
Proof.
  intros Ho H. unfold fromFace. destruct (kget seg (a_segs s)) as [i|]; [|now left]. destruct (si_live i); [right|now left].
  match goal with |- context [h ?x] => pose proof (heard_ext _ _ (H x)) as H1; change (a_tr x) with (a_tr s) in H1 end.
  change (o :: a_tr s) with ([o] ++ a_tr s) in H1. rewrite heard_app in H1.
  assert (1 <= heard [o]); [|lia]. unfold heard. rewrite !count_cons, !count_nil, Ho.
  destruct (is_rto o); lia.
Qed.
Lemma step_quiet s e : a_crashed s = false -> stopping s = false -> a_timer s = true ->
  stopping (a_step P C s e) = true \/ heard (a_tr s) < heard (a_tr (a_step P C s e)) \/
  a_step P C s e = set_now (a_now s + ticks e) s.
Proof.
  intros Hc Hs Ht.
  assert (HQ : silent e -> stopping (a_step P C s e) = true \/ heard (a_tr s) < heard (a_tr (a_step P C s e)) \/
               a_step P C s e = set_now (a_now s + ticks e) s).
  { intros He. right. destruct (silent_quiet C P s e He Hc Hs Ht) as [(k & Hk)|E]; [left|right; exact E].
    apply newrto_count in Hk. destruct (wk_step C P s e) as [[l El] _]. rewrite El in *. rewrite heard_app.
    rewrite count_app in Hk. unfold heard at 2. pose proof (count_nonneg is_got l). lia. }
  destruct e as [seg d|seg rr|seg|order|dt|]; try (apply HQ; exact I).
  - right. unfold a_step. rewrite Hc. cbn [ticks]. rewrite set_now_same.
    destruct (face_quiet seg (OGotData seg d) (fun s => handleData P C seg d (emit (OGotData seg d) s)) s eq_refl) as [H|H]; [|right; exact H|left; exact H].
    intros s'. exact (proj1 (mono_handleData C P seg d (emit (OGotData seg d) s'))).
  - right. unfold a_step. rewrite Hc. cbn [ticks]. rewrite set_now_same.
    destruct (face_quiet seg (OGotNack seg rr) (fun s => handleNack P C seg rr (emit (OGotNack seg rr) s)) s eq_refl) as [H|H]; [|right; exact H|left; exact H].
    intros s'. unfold handleNack. destruct (isStopping _); [apply ext_refl|].
    destruct rr; first [exact (proj1 (proj1 (mf_handleFail seg _ (emit (OGotNack seg _) s'))))|exact (proj1 (wk_lost C P seg (emit (OGotNack seg _) s')))|apply ext_refl].
  - right. unfold a_step. rewrite Hc. cbn [ticks]. rewrite set_now_same.
    destruct (face_quiet seg (OGotExpiry seg) (fun s => handleLifetimeExpiration P C seg (emit (OGotExpiry seg) s)) s eq_refl) as [H|H]; [|right; exact H|left; exact H].
    intros s'. unfold handleLifetimeExpiration. destruct (isStopping _); [apply ext_refl|].
    exact (proj1 (wk_lost C P seg (set_nTimeouts (a_nTimeouts s' + 1) (emit (OGotExpiry seg) s')))).
  - left. unfold a_step. rewrite Hc. unfold cancel, isStopping. cbn. rewrite Hs. reflexivity.
Qed.

Lemma quiet_stretch m q : bad (m + q)%nat \/ heard (a_tr (S m)) < heard (a_tr (S (m + q))) \/
  S (m + q) = set_now (a_now (S m) + (elapsed (m + q) f - elapsed m f)) (S m).
Proof.
  induction q as [|q IH].
  - right. right. rewrite Nat.add_0_r, Z.sub_diag, set_now_same. reflexivity.
  - replace (m + Datatypes.S q)%nat with (Datatypes.S (m + q)) by lia.
    assert (E3 : elapsed (Datatypes.S (m + q)) f = elapsed (m + q) f + ticks (f (m + q)%nat)).
    { unfold elapsed. replace (Datatypes.S (m + q)) with ((m + q) + 1)%nat by lia.
      rewrite first_app, map_app, sum_app. cbn [seq map fold_right]. fold (ticks (f (m + q)%nat)). lia. }
    destruct (bad_dec (m + q)%nat) as [H|(Hn & Hs & Hc)].
    { left. replace (Datatypes.S (m + q)) with ((m + q) + 1)%nat by lia. now apply bad_mono. }
    destruct IH as [H|[H|H]].
    + left. replace (Datatypes.S (m + q)) with ((m + q) + 1)%nat by lia. now apply bad_mono.
    + right. left. eapply Z.lt_le_trans; [exact H|]. apply heard_ext. rewrite S_step. apply wk_step.
    + destruct (S_busy _ Hn Hs Hc) as [Ht _].
      destruct (step_quiet (S (m + q)) (f (m + q)%nat) Hc Hs Ht) as [G|[G|G]]; rewrite <- S_step in G.
      * left. apply bad_state. now left.
      * right. left. rewrite H in G at 1. exact G.
      * right. right. rewrite G, H, E3. destruct (S m). unfold set_now. cbn. f_equal. lia.
Qed.

Lemma hears_more m : exists q, bad (m + q)%nat \/ heard (a_tr (S m)) < heard (a_tr (S (m + q))).
Proof.
  destruct (bad_dec m) as [H|(Hn & Hs & Hc)]; [exists 0%nat; left; now apply bad_mono|].
  destruct (S_busy m Hn Hs Hc) as (Ht & (k & Hk)).
  destruct (Hgo m (elapsed m f + (deadline (a_segs (S m)) - a_now (S m) + 1))) as (j & order & Hj & Ej & HT).
  exists (Datatypes.S (j - m)). replace (m + Datatypes.S (j - m))%nat with (Datatypes.S j) by lia.
  destruct (quiet_stretch m (j - m)) as [H|[H|H]]; replace (m + (j - m))%nat with j in H by lia.
  - left. replace (Datatypes.S j) with (j + 1)%nat by lia. now apply bad_mono.
  - right. eapply Z.lt_le_trans; [exact H|]. apply heard_ext. rewrite S_step. apply wk_step.
  - right. rewrite S_step, H, Ej. set (s1 := set_now _ (S m)).
    assert (N1 : newrto k s1 (a_step P C s1 (AeRto order))).
    { unfold a_step. change (a_crashed s1) with (a_crashed (S m)). rewrite Hc. change (a_timer s1) with (a_timer (S m)). rewrite Ht.
      assert (He : expired (set_timer false s1) k) by (apply flk_expired; [exact Hk|unfold s1; cbn; lia]).
      destruct (newrto_in _ _ _ (checkRto_fires C P order (set_timer false s1) k Hs He)) as (l & El & Hin).
      right. exists l. auto. }
    apply newrto_count in N1. destruct (wk_step C P s1 (AeRto order)) as [[l El] _]. rewrite El in *.
    rewrite count_app in N1. change (a_tr s1) with (a_tr (S m)) in *. rewrite heard_app. unfold heard at 2.
    pose proof (count_nonneg is_got l). lia.
Qed.
Lemma hears_any m v : exists q, bad (m + q)%nat \/ Z.of_nat v <= heard (a_tr (S (m + q))).
Proof.
  induction v as [|v [q [H|H]]]; [exists 0%nat; right; apply heard_pos|exists q; auto|].
  destruct (hears_more (m + q)) as (q' & [H'|H']); exists (q + q')%nat; replace (m + (q + q'))%nat with (m + q + q')%nat by lia; [auto|right; lia].
Qed.

Lemma heard_bound m M : (nf (a_tr (S m)) <= M)%N -> heard (a_tr (S m)) <= 2 * (Z.of_N M * (1 + b)).
Proof.
  intros HM. destruct (inv_run C P (first m f)) as [HA _]. fold (S m) in HA.
  destruct (fi_run C P (first m f)) as [HF _]. fold (S m) in HF.
  pose proof (rto_bound _ _ HF) as H1. pose proof (got_bound (first m f)) as H2. fold (S m) in H2.
  rewrite int_split in H1, H2.
  rewrite (retx_sum C (N.to_nat M) (a_tr (S m)) (A_ok _ _ HA)) in H1, H2 by lia.
  pose proof (crsum_le (N.to_nat M) (a_tr (S m)) b (Hcr m)) as H3.
  unfold heard. replace (Z.of_nat (N.to_nat M)) with (Z.of_N M) in * by lia. lia.
Qed.

Lemma S_dl m q : (length (dl (a_tr (S m))) <= length (dl (a_tr (S (m + q)))))%nat.
Proof. apply dl_ext, S_ext. Qed.

Lemma phase m : exists M, forall q, bad (m + q)%nat \/ (length (dl (a_tr (S m))) < length (dl (a_tr (S (m + q)))))%nat \/
  (nf (a_tr (S (m + q))) <= M)%N.
Proof.
  destruct (bad_dec m) as [H|(Hn & Hs & Hc)]; [exists 0%N; intros q; left; now apply bad_mono|].
  destruct (hasFbi (S m)) eqn:Ef.
  - exists (N.max (nf (a_tr (S m))) (last (S m) + 1)). intros q. right. right. destruct (S_ext m q) as [l El].
    destruct (inv_run C P (first (m + q) f)) as [HA _]. fold (S (m + q)) in HA.
    destruct (inv_run C P (first m f)) as [HA0 _]. fold (S m) in HA0.
    pose proof (A_ok _ _ HA) as Hok. rewrite El in Hok |- *. eapply nf_bound; [exact Hok|].
    rewrite (A_known _ _ HA0), Ef. reflexivity.
  - set (L0 := Z.of_nat (length (dl (a_tr (S m))))). set (D0 := gap (S m)).
    set (M := Z.max (Z.of_N (nf (a_tr (S m)))) (L0 + B + D0)).
    assert (HP : forall q, bad (m + q)%nat \/ (length (dl (a_tr (S m))) < length (dl (a_tr (S (m + q)))))%nat \/
                           Ph L0 D0 M (S (m + q))).
    { induction q as [|q IH].
      - right. right. rewrite Nat.add_0_r. right. repeat split; [exact Ef|unfold D0; lia|unfold M; lia].
      - replace (m + Datatypes.S q)%nat with (Datatypes.S (m + q)) by lia.
        destruct (bad_dec (m + q)%nat) as [H|(Hn1 & Hs1 & Hc1)].
        { left. replace (Datatypes.S (m + q)) with ((m + q) + 1)%nat by lia. now apply bad_mono. }
        pose proof (S_live _ Hc1) as HL.
        destruct IH as [H|[H|H]].
        + left. replace (Datatypes.S (m + q)) with ((m + q) + 1)%nat by lia. now apply bad_mono.
        + right. left. pose proof (S_dl (m + q) 1) as H1. replace (m + q + 1)%nat with (Datatypes.S (m + q)) in H1 by lia. lia.
        + assert (HND : match f (m + q)%nat with AeData _ _ => False | _ => True end -> Ph L0 D0 M (S (Datatypes.S (m + q)))).
          { intros He. rewrite S_step. apply (ph_step B); auto. unfold M. lia. }
          destruct (f (m + q)%nat) as [seg d| | | | |] eqn:Ee; try (right; right; apply HND; exact I). clear HND.
          pose proof (Hh (Datatypes.S (m + q)) seg d) as Hd. pose proof (bad_state (Datatypes.S (m + q))) as Hb.
          pose proof (S_dl m q) as Hmq.
          rewrite S_step, Ee in Hd, Hb |- *. unfold a_step in Hd, Hb |- *. rewrite Hc1 in Hd, Hb |- *. unfold fromFace in Hd, Hb |- *.
          destruct (kget seg (a_segs (S (m + q)))) as [i|] eqn:Ei; [|right; right; exact H].
          destruct (si_live i) eqn:El; [|right; right; exact H].
          set (s1 := set_segs _ (S (m + q))) in Hd, Hb |- *.
          assert (G : let s' := handleData P C seg d (emit (OGotData seg d) s1) in
                      stopping s' = true \/ a_crashed s' = true \/ (length (dl (a_tr s1)) < length (dl (a_tr s')))%nat).
          { apply data_delivers.
            - eapply live_kset_info; eauto. cbn. intros Hq. destruct HL as [_ HR]. eapply (R_q _ _ (HR Hs1)); eauto.
            - exact Hs1.
            - exact Hc1.
            - unfold s1. cbn. rewrite kmem_kset, N.eqb_refl. reflexivity.
            - intros m0 Em. assert (Hin : In (OGotData seg d) (a_tr (handleData P C seg d (emit (OGotData seg d) s1)))).
              { eapply ext_in; [apply (mono_handleData C P seg d (emit (OGotData seg d) s1))|]. now left. }
              specialize (Hd Hin). destruct Hd as [Hd1 [Hd2|Hd2]]; [congruence|].
              assert (E : m0 = n) by congruence. rewrite E. exact Hd1. }
          cbv zeta in G. destruct G as [G|[G|G]].
          * left. apply Hb. now left.
          * left. apply Hb. now right.
          * right. left. change (a_tr s1) with (a_tr (S (m + q))) in G. lia. }
    exists (Z.to_N M). intros q. destruct (bad_dec (m + q)%nat) as [H|(Hn1 & Hs1 & Hc1)]; [now left|].
    destruct (HP q) as [H|[H|H]]; [now left|right; now left|right; right].
    destruct H as [[H|H]|(_ & _ & _ & H)]; [congruence|specialize (Hnf _ Hn1); congruence|lia].
Qed.

Lemma delivers_more m : exists q, bad (m + q)%nat \/ (length (dl (a_tr (S m))) < length (dl (a_tr (S (m + q)))))%nat.
Proof.
  destruct (phase m) as [M HM].
  destruct (hears_any m (Z.to_nat (2 * (Z.of_N M * (1 + b)) + 1))) as [q [H|H]]; [exists q; auto|].
  exists q. destruct (HM q) as [G|[G|G]]; [auto|auto|]. exfalso. apply heard_bound in G. lia.
Qed.
Lemma delivers_any v : exists q, bad q \/ (v <= length (dl (a_tr (S q))))%nat.
Proof.
  induction v as [|v [q [H|H]]]; [exists 0%nat; right; lia|exists q; auto|].
  destruct (delivers_more q) as (q' & [H'|H']); exists (q + q')%nat; [auto|right; lia].
Qed.

Lemma dl_got t : tr_ok C t -> NoDup (dl t) /\ forall k, In k (dl t) -> exists d, In (OGotData k d) t.
Proof.
  induction t as [|o t IH]; [intros _; split; [constructor|contradiction]|].
  intros [HG Hok]. destruct (IH Hok) as [H1 H2].
  assert (HX : dl (o :: t) = dl t \/ exists k d, o = ODeliver k d) by (destruct o; eauto).
  destruct HX as [E|(k & d & ->)].
  - rewrite E. split; [exact H1|]. intros k Hk. destruct (H2 k Hk) as [d Hd]. exists d. now right.
  - cbn in HG. destruct HG as (_ & Hn & _ & Hg).
    assert (E : forall x, In x (dl (ODeliver k d :: t)) <-> x = k \/ In x (dl t)).
    { intros x. cbn. rewrite ?in_app_iff. cbn. intuition. }
    split.
    + cbn. now constructor.
    + intros x Hx. apply E in Hx. destruct Hx as [->|Hx]; [exists d; now right|].
      destruct (H2 x Hx) as [d' Hd']. exists d'. now right.
Qed.

Theorem transfer_ends : exists m, bad m.
Proof.
  destruct (delivers_any (N.to_nat n + 2)) as [q [H|H]]; [eauto|]. exfalso.
  destruct (inv_run C P (first q f)) as [HA _]. fold (S q) in HA.
  destruct (dl_got _ (A_ok _ _ HA)) as [H1 H2].
  assert (G : (length (dl (a_tr (S q))) <= length (upto (N.to_nat n + 1)))%nat).
  { apply NoDup_incl_length; [exact H1|]. intros k Hk. destruct (H2 k Hk) as [d Hd]. destruct (Hh _ _ _ Hd) as [Hk' _].
    apply in_upto. lia. }
  rewrite length_upto in G. lia.
Qed.
End Forever.

Lemma losses_rev k t : losses k (rev t) = losses k t.
Proof. unfold losses. apply count_rev. Qed.
Lemma cr_losses es k : cr k (a_tr (a_run P C es)) <= losses k (a_tr (a_run P C es)).
Proof.
  destruct (inv_run C P es) as [HA _].
  pose proof (P_pay _ (paid_run es) k) as H. pose proof (A_cr _ _ HA k) as H1.
  unfold rc, occ in H. pose proof (count_nonneg (N.eqb k) (a_retxq (a_run P C es))).
  destruct (kget k (a_retxCount (a_run P C es))); lia.
Qed.
Lemma over_tr s : existsb is_over (a_history s) = ended (a_tr s).
Proof. unfold a_history. rewrite <- ended_rev, rev_involutive. reflexivity. Qed.
Lemma in_h s o : In o (a_history s) <-> In o (a_tr s).
Proof. unfold a_history. symmetry. apply in_rev. Qed.

(** whatever arrives: unless a segment fails before the final one is known *)
Theorem adaptive_always_ends n f B :
  let h m := a_history (a_run P C (first m f)) in
  (forall m, honest n (h m)) -> (forall m, open_window w0 (h m)) -> (forall w, p_floor P w <= B) ->
  r <> -1 -> (forall m, on_track r (h m)) -> keeps_going f ->
  exists m, existsb is_over (h m) = true \/ In OThrow (h m).
Proof.
  cbv beta zeta. intros Hh Hw HB Hr Ht Hgo.
  assert (H : exists m, bad f m).
  { apply (transfer_ends n f (Z.max 1 r) B).
    - intros m. apply honest_tr, Hh.
    - exact (proj1 (open_window_pos P _ (Hw 0%nat))).
    - intros m. exact (proj2 (open_window_pos P _ (Hw m))).
    - exact HB.
    - intros m k. destruct (inv_run C P (first m f)) as [HA _]. now apply (A_crmax _ _ HA).
    - intros m Hn. apply (on_track_state C P (first m f) (Ht m)).
      + rewrite over_tr. destruct (ended _) eqn:E; [exfalso; apply Hn; now left|reflexivity].
      + rewrite in_h. intros Hi. apply Hn. now right.
    - exact Hgo. }
  destruct H as [m [H|H]]; exists m; [left; now rewrite over_tr|right; now apply in_h].
Qed.

(** losses within the budget, no fatal Nack: never a failure *)
Theorem no_failure es :
  let h := a_history (a_run P C es) in
  (forall seg rr, ~ refused h seg rr) -> (r = -1 \/ forall seg, count (lost seg) h <= Z.max 1 r) ->
  ~ failed (a_run P C es).
Proof.
  cbv zeta. intros Hn Hb HF. apply (P_fail _ (paid_run es)) in HF. destruct HF as (seg & [(rr & H1 & H2 & H3)|[H1 H2]]).
  - apply (Hn seg rr). split; [exact H1|]. split; [exact H2|]. now apply in_h.
  - destruct Hb as [Hb|Hb]; [contradiction|]. specialize (Hb seg). unfold a_history in Hb.
    change (count (lost seg) (rev ?t)) with (losses seg (rev t)) in Hb. rewrite losses_rev in Hb. lia.
Qed.
Theorem bounded_loss_ends n f b B :
  let h m := a_history (a_run P C (first m f)) in
  (forall m, honest n (h m)) -> (forall m, open_window w0 (h m)) -> (forall w, p_floor P w <= B) ->
  (forall m seg rr, ~ refused (h m) seg rr) ->
  (forall m seg, count (lost seg) (h m) <= b) -> (r = -1 \/ b <= Z.max 1 r) -> keeps_going f ->
  exists m, existsb is_over (h m) = true \/ In OThrow (h m).
Proof.
  cbv beta zeta. intros Hh Hw HB Hn Hl Hb Hgo.
  assert (H : exists m, bad f m).
  { apply (transfer_ends n f b B).
    - intros m. apply honest_tr, Hh.
    - exact (proj1 (open_window_pos P _ (Hw 0%nat))).
    - intros m. exact (proj2 (open_window_pos P _ (Hw m))).
    - exact HB.
    - intros m k. eapply Z.le_trans; [apply cr_losses|]. specialize (Hl m k). unfold a_history in Hl.
      change (count (lost k) (rev ?t)) with (losses k (rev t)) in Hl. now rewrite losses_rev in Hl.
    - intros m _. destruct (a_hasFailure (a_run P C (first m f))) eqn:E; [exfalso|reflexivity].
      apply (no_failure (first m f) (Hn m)); [|now left].
      destruct Hb as [Hb|Hb]; [now left|right]. intros seg. specialize (Hl m seg). lia.
    - exact Hgo. }
  destruct H as [m [H|H]]; exists m; [left; now rewrite over_tr|right; now apply in_h].
Qed.
End Ends.
